(* Witnesses for C92 and C93. *)
From Coq Require Import ZArith QArith Lia Bool String Ascii List Floats.SpecFloat.
From Verif Require Import Base Arith Util Device SpecDevice Workload SpecWorkload Rates Stats Engine SpecEngine SpecRates Files SpecFiles SpecText Text TextProofs TextReport TextConfig Cases EngineWitness ReportWitness.
Import ListNotations.
Local Open Scope string_scope.
Local Open Scope list_scope.
Open Scope Z_scope.

Definition no_text (x : spec_float) : string := "?".
Definition finiteb (x : spec_float) : bool := match x with S754_zero _ | S754_finite _ _ _ => true | _ => false end.
Definition report_view (verbose : bool) (us : Z) (r : outcome (npe_result f32A)) (id : Z) : option (string * bool * Z) :=
  match r with
  | Ok (Stats stt) => match stats_get f32A stt id with
                      | Some ds => Some (stats_to_string no_text verbose us ds, (0 <=? ds_est f32A ds) && (0 <=? ds_golden f32A ds) && forallb (fun e => finiteb (snd (fst e))) (shown ds), ds_golden f32A ds)
                      | None => None
                      end
  | _ => None
  end.
Lemma report_view_ok verbose us r id s g : report_view verbose us r id = Some (s, true, g) -> exists stt ds, r = Ok (Stats stt) /\ stats_get f32A stt id = Some ds /\ showable ds /\ stats_to_string no_text verbose us ds = s /\ ds_golden f32A ds = g.
Proof.
  unfold report_view. destruct r as [[stt|]| | | | | |]; try discriminate. destruct (stats_get f32A stt id) as [ds|] eqn:E; [|discriminate].
  intros H. injection H as H1 H2 H3. exists stt, ds. split; [reflexivity|]. split; [exact E|]. split; [|auto]. apply andb_prop in H2 as [H2 N3]. apply andb_prop in H2 as [N1 N2].
  split; [lia|]. split; [lia|]. apply Forall_forall. intros e He. pose proof (proj1 (forallb_forall (fun e => finiteb (snd (fst e))) (shown ds)) N3 e He) as K. cbv beta in K. unfold finite. destruct (snd (fst e)); first [exact I | discriminate K].
Qed.
Definition cores_text : string := "  congestion impact:   0.0%
   estimated cycles:   100
      golden cycles:  1000
   cycle pred error: -90.0%

       DRAM BW Util:   0.0% (using golden)
       DRAM BW Util:   0.0% (using estimated)
        ETH BW Util:   0.4%

      avg Link util:   0.1%
 avg Mcast link util:   0.0%
      max Link util:   0.2%

    avg Link demand:   0.1%
    max Link demand:   0.2%

    avg NIU  demand:   0.0%
    max NIU  demand:   0.0%

   wallclock time:    42 us
".
Lemma cores_report : exists stt ds, runSinglePerfSim f32A same_links same_buckets wormhole_b0 "fast" 100 (wl_cores f32A) = Ok (Stats stt) /\ stats_get f32A stt 0 = Some ds /\ showable ds /\
  stats_to_string no_text true 42 ds = cores_text /\ ds_golden f32A ds = 1000.
Proof. apply report_view_ok. vm_compute. reflexivity. Qed.
(* the same statistics with another average *)
Definition with_avg (x : spec_float) (ds : dstats f32A) : dstats f32A :=
  mkDs f32A (ds_completed f32A ds) (ds_est f32A ds) (ds_congfree f32A ds) (ds_golden f32A ds) (ds_err f32A ds) x (ds_max_ld f32A ds)
       (ds_avg_lu f32A ds) (ds_max_lu f32A ds) (ds_avg_nd f32A ds) (ds_max_nd f32A ds) (ds_avg_ld0 f32A ds) (ds_avg_lu0 f32A ds)
       (ds_max_ld0 f32A ds) (ds_avg_ld1 f32A ds) (ds_avg_lu1 f32A ds) (ds_max_ld1 f32A ds) (ds_avg_mc f32A ds) (ds_dram f32A ds)
       (ds_dram_sim f32A ds) (ds_eth f32A ds) (ds_ts f32A ds) (ds_worst f32A ds).
(* 1/16, 1/8 and 3/16; a half of a tenth to the even digit *)
Definition sixteenths (m : positive) : spec_float := S754_finite false m (-4).
(* floats as sign, significand and exponent *)
Definition raw_text (x : spec_float) : string :=
  match x with
  | S754_zero false => "+0" | S754_zero true => "-0" | S754_infinity false => "+i" | S754_infinity true => "-i" | S754_nan => "nan"
  | S754_finite s m e => String.append (if s then "-" else "+") (String.append (decimal (Zpos m)) (String.append (if e <? 0 then "^-" else "^+") (decimal (Z.abs e))))
  end.
Lemma raw_lacks x : lacks (ascii_of_nat 10) (raw_text x).
Proof.
  apply lacksb_iff. destruct x as [[|]|[|]| |s m e]; try reflexivity. cbn [raw_text]. rewrite !lacksb_app, (dec_plain (Zpos m)), (dec_plain (Z.abs e)) by lia. destruct s, (e <? 0); reflexivity.
Qed.
Lemma raw_head m r : exists c s, String.append (decimal (Zpos m)) r = String c s /\ c <> "0"%char /\ c <> "i"%char.
Proof.
  assert (G : forall n s, numeral n s -> 0 < n -> exists c t, s = String c t /\ c <> "0"%char /\ c <> "i"%char).
  { induction 1 as [d Hd|n d s Hn Hd _ IH]; intros P.
    - revert P. pattern d. revert d Hd. apply FilesProofs.ten_cases; intros P; try lia; (eexists; eexists; split; [reflexivity|split; discriminate]).
    - destruct (IH Hn) as (c & t & -> & C). exists c, (String.append t (digit d)). auto. }
  destruct (G _ _ (FilesProofs.decimal_numeral (Zpos m) ltac:(lia)) ltac:(lia)) as (c & t & -> & C). exists c, (String.append t r). auto.
Qed.
Lemma raw_inj x y : raw_text x = raw_text y -> x = y.
Proof.
  assert (Z0 : forall s m e b, raw_text (S754_finite s m e) <> raw_text (S754_zero b)).
  { intros s m e b E. cbn [raw_text] in E. destruct (raw_head m (String.append (if e <? 0 then "^-" else "^+") (decimal (Z.abs e)))) as (c & t & E1 & C1 & C2). rewrite E1 in E. destruct s, b; cbn in E; injection E; intros; congruence. }
  assert (I0 : forall s m e b, raw_text (S754_finite s m e) <> raw_text (S754_infinity b)).
  { intros s m e b E. cbn [raw_text] in E. destruct (raw_head m (String.append (if e <? 0 then "^-" else "^+") (decimal (Z.abs e)))) as (c & t & E1 & C1 & C2). rewrite E1 in E. destruct s, b; cbn in E; injection E; intros; congruence. }
  destruct x as [b|b| |s m e], y as [b'|b'| |s' m' e']; intros E;
    try (destruct b; discriminate E); try (destruct b'; discriminate E); try (destruct b, b'; first [reflexivity | discriminate E]); try reflexivity;
    try (exfalso; exact (Z0 _ _ _ _ E)); try (exfalso; exact (I0 _ _ _ _ E)); try (exfalso; exact (Z0 _ _ _ _ (eq_sym E))); try (exfalso; exact (I0 _ _ _ _ (eq_sym E)));
    try (destruct s; discriminate E); try (destruct s'; discriminate E).
  cbn [raw_text] in E. assert (E1 : s = s' /\ String.append (decimal (Zpos m)) (String.append (if e <? 0 then "^-" else "^+") (decimal (Z.abs e))) = String.append (decimal (Zpos m')) (String.append (if e' <? 0 then "^-" else "^+") (decimal (Z.abs e')))).
  { destruct s, s'; cbn [String.append] in E; first [discriminate E | injection E as E; auto]. }
  destruct E1 as [<- E1].
  assert (E2 : String.append (decimal (Zpos m)) (String "^" (String.append (if e <? 0 then "-" else "+") (decimal (Z.abs e)))) = String.append (decimal (Zpos m')) (String "^" (String.append (if e' <? 0 then "-" else "+") (decimal (Z.abs e'))))).
  { destruct (e <? 0), (e' <? 0); exact E1. }
  assert (D : forall n, 0 <= n -> lacksb "^" (decimal n) = true) by (intros n H; exact (numeral_lacks "^" n _ eq_refl (FilesProofs.decimal_numeral n H))).
  destruct (peel "^" _ _ _ _ (D (Zpos m) ltac:(lia)) (D (Zpos m') ltac:(lia)) E2) as [Em Ee]. apply FilesProofs.decimal_inj in Em; [|lia|lia]. injection Em as <-.
  assert (EE : e = e').
  { destruct (Z.ltb_spec e 0), (Z.ltb_spec e' 0); cbn [String.append] in Ee; first [discriminate Ee | injection Ee as Ee; apply FilesProofs.decimal_inj in Ee; [lia|lia|lia]]. }
  subst e'. reflexivity.
Qed.
