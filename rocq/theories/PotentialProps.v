(* C39: the Higgs potential parameters (m2, Lambda) and the physical vev and Higgs mass. *)
From Coq Require Import List Bool ZArith Arith Lia String Ascii Reals Lra Psatz.
From Verif Require Import PyBase Num SymModel EftModel NpModel RealC SmparModel.
Import ListNotations.
Local Open Scope string_scope.
Local Open Scope list_scope.
Local Open Scope R_scope.

(* ---------- specification ---------- *)
(* the coefficients of the potential and of the Higgs kinetic term: C_phi and
   C_kin = C_phiBox - C_phiD / 4 (real parts) are present in C *)
Definition higgs_wcs (C : cdictR) (Cphi Ckin : R) : Prop :=
  exists b d, getre C "phi" = Ok Cphi /\ getre C "phiBox" = Ok b /\ getre C "phiD" = Ok d /\ Ckin = b - d / 4.
(* eq. (3.1) of arXiv:1704.03888 with (0, h/sqrt2) for the Higgs doublet:
   V(h) = - m2 h^2/2 + Lambda h^4/8 - C_phi h^6/8, and kinetic term (1 - 2 C_kin h^2) (dh)^2/2 *)
Definition potential (m2 Lambda Cphi h : R) : R := - m2 * h ^ 2 / 2 + Lambda * h ^ 4 / 8 - Cphi * h ^ 6 / 8.
Definition potential' (m2 Lambda Cphi h : R) : R := - m2 * h + Lambda * h ^ 3 / 2 - 3 / 4 * Cphi * h ^ 5.
Definition potential'' (m2 Lambda Cphi h : R) : R := - m2 + 3 / 2 * Lambda * h ^ 2 - 15 / 4 * Cphi * h ^ 4.
Lemma derive_pow n c x : derivable_pt_lim (fun h => c * h ^ n) x (c * (INR n * x ^ pred n)).
Proof. apply derivable_pt_lim_scal. apply derivable_pt_lim_pow. Qed.
Lemma derive_ext f g x l : (forall y, f y = g y) -> derivable_pt_lim f x l -> derivable_pt_lim g x l.
Proof. intros E D eps He. destruct (D eps He) as [d Hd]. exists d. intros h Hn Hh. rewrite <- !E. now apply Hd. Qed.
Example C39_derivative m2 L c x : derivable_pt_lim (potential m2 L c) x (potential' m2 L c x).
Proof.
  pose proof (derivable_pt_lim_plus _ _ x _ _ (derivable_pt_lim_plus _ _ x _ _ (derive_pow 2 (- m2 / 2) x) (derive_pow 4 (L / 8) x)) (derive_pow 6 (- c / 8) x)) as D.
  unfold potential'. replace (- m2 * x + L * x ^ 3 / 2 - 3 / 4 * c * x ^ 5) with
    (- m2 / 2 * (INR 2 * x ^ pred 2) + L / 8 * (INR 4 * x ^ pred 4) + - c / 8 * (INR 6 * x ^ pred 6)) by (cbn [pred INR]; field).
  revert D. apply derive_ext. intros y. unfold potential, plus_fct. field.
Qed.
Example C39_derivative2 m2 L c x : derivable_pt_lim (potential' m2 L c) x (potential'' m2 L c x).
Proof.
  pose proof (derivable_pt_lim_plus _ _ x _ _ (derivable_pt_lim_plus _ _ x _ _ (derive_pow 1 (- m2) x) (derive_pow 3 (L / 2) x)) (derive_pow 5 (- 3 / 4 * c) x)) as D.
  unfold potential''. replace (- m2 + 3 / 2 * L * x ^ 2 - 15 / 4 * c * x ^ 4) with
    (- m2 * (INR 1 * x ^ pred 1) + L / 2 * (INR 3 * x ^ pred 3) + - 3 / 4 * c * (INR 5 * x ^ pred 5)) by (cbn [pred INR]; field).
  revert D. apply derive_ext. intros y. unfold potential', plus_fct. field.
Qed.
(* v is a stationary point and Mh2 the curvature in units of the canonically normalised field *)
Definition vacuum (m2 Lambda Cphi Ckin v Mh2 : R) : Prop :=
  0 < v /\ 0 < Mh2 /\ potential' m2 Lambda Cphi v = 0 /\ Mh2 * (1 - 2 * Ckin * v ^ 2) = potential'' m2 Lambda Cphi v.
(* the code neglects |C_phi| < 1e-16 *)
Definition phi_seen (Cphi : R) : Prop := Cphi = 0 \/ / 10 ^ 16 <= Rabs Cphi.

Ltac reads W := let b := fresh in let d := fresh in destruct W as (b & d & Ep & Eb & Ed & ->); rewrite ?Ep, ?Eb, ?Ed; cbn [bind].
Lemma dec_lt {A} (x y : R) (a b : A) : x < y -> (if Rlt_dec x y then a else b) = a.
Proof. intros. destruct (Rlt_dec x y); [reflexivity|contradiction]. Qed.
Lemma small_pos : 0 < / 10 ^ 16.
Proof. apply Rinv_0_lt_compat. apply pow_lt. lra. Qed.

Lemma v2_eq v2 : 0 < v2 -> sqrt v2 ^ 2 = v2.
Proof. intros. rewrite <- (sqrt_sqrt v2) at 2 by lra. ring. Qed.
(* what a successful call has checked *)
Lemma success m2 L C v Mh2 : m2Lambda_to_vMh2 m2 L C = Ok (v, Mh2) ->
  exists Cphi Ckin v2, higgs_wcs C Cphi Ckin /\ 0 < v2 /\ v = sqrt v2 /\ 1 - 2 * Ckin * v2 <> 0 /\ 0 < Mh2 /\
    Mh2 = v2 / (1 - 2 * Ckin * v2) * (L - 3 * Cphi * v2) /\
    ((Rabs Cphi < / 10 ^ 16 /\ L <> 0 /\ v2 = 2 * m2 / L) \/
     (/ 10 ^ 16 <= Rabs Cphi /\ 0 <= L ^ 2 - 12 * Cphi * m2 /\ v2 = (L - sqrt (L ^ 2 - 12 * Cphi * m2)) / (3 * Cphi))).
Proof.
  unfold m2Lambda_to_vMh2. destruct (getre C "phi") as [Cphi|] eqn:Ep; [|discriminate].
  destruct (getre C "phiBox") as [b|] eqn:Eb; [|discriminate]. destruct (getre C "phiD") as [d|] eqn:Ed; [|discriminate].
  cbn [bind]. cbn zeta. intros E.
  destruct (Rlt_dec (Rabs Cphi) (/ 10 ^ 16)) as [S|S].
  - destruct (Req_EM_T L 0) as [Z|Z]; cbn [bind] in E; [discriminate|].
    destruct (Rlt_dec 0 (2 * m2 / L)) as [P|P]; [|discriminate].
    destruct (Req_EM_T (1 - 2 * (b - d / 4) * (2 * m2 / L)) 0) as [Y|Y]; [discriminate|].
    destruct (Rlt_dec 0 _) as [M|M] in E; [|discriminate]. injection E as <- <-.
    exists Cphi, (b - d / 4), (2 * m2 / L). repeat split; auto. exists b, d. auto.
  - destruct (Rle_dec 0 (L ^ 2 - 12 * Cphi * m2)) as [Z|Z]; cbn [bind] in E; [|discriminate].
    set (v2 := (L - sqrt (L ^ 2 - 12 * Cphi * m2)) / (3 * Cphi)) in *.
    destruct (Rlt_dec 0 v2) as [P|P]; [|discriminate].
    destruct (Req_EM_T (1 - 2 * (b - d / 4) * v2) 0) as [Y|Y]; [discriminate|].
    destruct (Rlt_dec 0 _) as [M|M] in E; [|discriminate]. injection E as <- <-.
    exists Cphi, (b - d / 4), v2. repeat split; auto.
    + exists b, d. auto.
    + right. repeat split; auto. lra.
Qed.
Lemma wcs_fun C c k c' k' : higgs_wcs C c k -> higgs_wcs C c' k' -> c = c' /\ k = k'.
Proof. intros (b & d & A1 & A2 & A3 & ->) (b' & d' & B1 & B2 & B3 & ->). rewrite A1 in B1. rewrite A2 in B2. rewrite A3 in B3. injection B1. injection B2. injection B3. intros. subst. auto. Qed.

(* ---------- theorems ---------- *)
(* a result is a vacuum: a stationary point of the potential with the right curvature, on the
   branch connected to the usual one (positive curvature if the kinetic term is positive) *)
Theorem C39_vacuum m2 L C v Mh2 Cphi Ckin : higgs_wcs C Cphi Ckin -> phi_seen Cphi ->
  m2Lambda_to_vMh2 m2 L C = Ok (v, Mh2) -> vacuum m2 L Cphi Ckin v Mh2.
Proof.
  intros W S E. apply success in E as (c & k & v2 & W' & P & -> & N & M & EM & D).
  destruct (wcs_fun _ _ _ _ _ W W') as [<- <-].
  assert (R : m2 = L * v2 / 2 - 3 / 4 * Cphi * v2 ^ 2).
  { destruct D as [(A & NL & ->)|(A & B & ->)].
    - destruct S as [->|S]; [field; exact NL|lra].
    - assert (NC : Cphi <> 0). { intros ->. rewrite Rabs_R0 in A. pose proof small_pos. lra. }
      set (q := sqrt (L ^ 2 - 12 * Cphi * m2)). assert (Q : q ^ 2 = L ^ 2 - 12 * Cphi * m2) by (unfold q; rewrite <- (sqrt_sqrt (L ^ 2 - 12 * Cphi * m2)) at 2 by exact B; ring).
      replace m2 with ((L ^ 2 - q ^ 2) / (12 * Cphi)) at 1 by (rewrite Q; field; exact NC). field. exact NC. }
  pose proof (v2_eq v2 P) as Q. unfold vacuum, potential', potential''. set (v := sqrt v2) in *. split; [|split; [exact M|split]].
  - now apply sqrt_lt_R0.
  - rewrite R, <- Q. field.
  - rewrite EM, R. replace (v ^ 4) with (v2 ^ 2) by (rewrite <- Q; ring). rewrite Q. field. exact N.
Qed.
(* (v, Mh2) -> (m2, Lambda): the potential with this vacuum *)
Theorem C39_potential v Mh2 C Cphi Ckin : higgs_wcs C Cphi Ckin -> 0 < v -> 0 < Mh2 ->
  exists m2 L, vMh2_to_m2Lambda v Mh2 C = Ok (m2, L) /\ vacuum m2 L Cphi Ckin v Mh2 /\
    forall m2' L', vacuum m2' L' Cphi Ckin v Mh2 -> m2' = m2 /\ L' = L.
Proof.
  intros W Hv HM. unfold vMh2_to_m2Lambda. rewrite !dec_lt by assumption. reads W.
  eexists; eexists. split; [reflexivity|]. split.
  - unfold vacuum, potential', potential''. split; [exact Hv|split; [exact HM|split]]; field; lra.
  - intros m2' L' (_ & _ & A & B). unfold potential', potential'' in *.
    assert (E1 : m2' = L' * v ^ 2 / 2 - 3 / 4 * Cphi * v ^ 4).
    { apply (Rmult_eq_reg_l v); [|lra]. lra. }
    assert (E2 : L' = Mh2 / v ^ 2 - 2 * (H - H0 / 4) * Mh2 + 3 * Cphi * v ^ 2).
    { apply (Rmult_eq_reg_l (v ^ 2)); [|apply pow_nonzero; lra].
      transitivity (Mh2 * (1 - 2 * (H - H0 / 4) * v ^ 2) + 3 * Cphi * v ^ 4); [rewrite B, E1; field|field; lra]. }
    split; [|exact E2]. rewrite E1, <- E2. field.
Qed.
(* (v, Mh2) -> (m2, Lambda) -> (v, Mh2) *)
Theorem C39_physical_roundtrip v Mh2 C Cphi Ckin : higgs_wcs C Cphi Ckin -> phi_seen Cphi -> 0 < v -> 0 < Mh2 ->
  0 < 1 - 2 * Ckin * v ^ 2 ->
  exists m2 L, vMh2_to_m2Lambda v Mh2 C = Ok (m2, L) /\ m2Lambda_to_vMh2 m2 L C = Ok (v, Mh2).
Proof.
  intros W S Hv HM HK. destruct (C39_potential v Mh2 C Cphi Ckin W Hv HM) as (m2 & L & E & (_ & _ & A & B) & _).
  exists m2, L. split; [exact E|]. unfold potential', potential'' in *.
  assert (E1 : m2 = L * v ^ 2 / 2 - 3 / 4 * Cphi * v ^ 4) by (apply (Rmult_eq_reg_l v); [|lra]; lra).
  assert (X : L - 3 * Cphi * v ^ 2 = Mh2 * (1 - 2 * Ckin * v ^ 2) / v ^ 2).
  { rewrite B, E1. field. lra. }
  assert (Hv2 : 0 < v ^ 2) by (apply pow_lt; lra).
  assert (XP : 0 < L - 3 * Cphi * v ^ 2).
  { rewrite X. apply Rdiv_lt_0_compat; [|exact Hv2]. now apply Rmult_lt_0_compat. }
  clear E A B. unfold m2Lambda_to_vMh2. reads W. cbn zeta.
  set (k := H - H0 / 4) in *.
  assert (G : (if Rlt_dec (Rabs Cphi) (/ 10 ^ 16) then if Req_EM_T L 0 then Err ZeroDivisionError else Ok (2 * m2 / L)
     else if Rle_dec 0 (L ^ 2 - 12 * Cphi * m2) then Ok ((L - sqrt (L ^ 2 - 12 * Cphi * m2)) / (3 * Cphi)) else Err ValueError) = Ok (v ^ 2)).
  { destruct (Rlt_dec (Rabs Cphi) (/ 10 ^ 16)) as [T|T].
    - destruct S as [->|S]; [|lra]. assert (0 < L) by lra. destruct (Req_EM_T L 0); [lra|]. f_equal. rewrite E1. field. lra.
    - assert (NC : Cphi <> 0). { intros ->. rewrite Rabs_R0 in T. pose proof small_pos. lra. }
      replace (L ^ 2 - 12 * Cphi * m2) with (Rsqr (L - 3 * Cphi * v ^ 2)) by (rewrite E1; unfold Rsqr; field).
      destruct (Rle_dec 0 _) as [_|N]; [|exfalso; apply N, Rle_0_sqr]. rewrite sqrt_Rsqr by lra. f_equal. field. exact NC. }
  rewrite G. cbn [bind]. rewrite dec_lt by exact Hv2. destruct (Req_EM_T (1 - 2 * k * v ^ 2) 0) as [Z|_]; [lra|].
  replace (v ^ 2 / (1 - 2 * k * v ^ 2) * (L - 3 * Cphi * v ^ 2)) with Mh2 by (rewrite X; field; split; lra).
  rewrite dec_lt by exact HM. f_equal. f_equal. replace (v ^ 2) with (v * v) by ring. apply sqrt_square. lra.
Qed.
(* (m2, Lambda) -> (v, Mh2) -> (m2, Lambda) *)
Theorem C39_potential_roundtrip m2 L C v Mh2 Cphi Ckin : higgs_wcs C Cphi Ckin -> phi_seen Cphi ->
  m2Lambda_to_vMh2 m2 L C = Ok (v, Mh2) -> vMh2_to_m2Lambda v Mh2 C = Ok (m2, L).
Proof.
  intros W S E. pose proof (C39_vacuum m2 L C v Mh2 Cphi Ckin W S E) as V.
  destruct V as (Hv & HM & V). destruct (C39_potential v Mh2 C Cphi Ckin W Hv HM) as (m & l & F & _ & U).
  rewrite F. destruct (U m2 L) as [<- <-]; [|reflexivity]. now split.
Qed.
(* every vacuum with positive kinetic term is found, and then no exception is raised *)
Theorem C39_complete m2 L C v Mh2 Cphi Ckin : higgs_wcs C Cphi Ckin -> phi_seen Cphi ->
  vacuum m2 L Cphi Ckin v Mh2 -> 0 < 1 - 2 * Ckin * v ^ 2 -> m2Lambda_to_vMh2 m2 L C = Ok (v, Mh2).
Proof.
  intros W S V HK. pose proof V as (Hv & HM & _).
  destruct (C39_physical_roundtrip v Mh2 C Cphi Ckin W S Hv HM HK) as (m & l & F & G).
  destruct (C39_potential v Mh2 C Cphi Ckin W Hv HM) as (m' & l' & F' & _ & U).
  rewrite F in F'. injection F' as <- <-. now destruct (U m2 L V) as [-> ->].
Qed.
(* a coefficient below the cut is treated as zero; the relative error of v^2 is bounded *)
Theorem C39_small_phi v Mh2 C Cphi Ckin m2 L v' Mh2' : higgs_wcs C Cphi Ckin -> Rabs Cphi < / 10 ^ 16 ->
  vMh2_to_m2Lambda v Mh2 C = Ok (m2, L) -> m2Lambda_to_vMh2 m2 L C = Ok (v', Mh2') ->
  Rabs (v' ^ 2 - v ^ 2) <= 3 / 2 * / 10 ^ 16 * v ^ 4 / Rabs L.
Proof.
  intros W S E F. apply success in F as (c & k & v2 & W' & P & -> & N & M & EM & D).
  destruct (wcs_fun _ _ _ _ _ W W') as [<- <-]. rewrite v2_eq by exact P.
  destruct D as [(_ & NL & ->)|(A & _)]; [|lra].
  unfold vMh2_to_m2Lambda in E. destruct (Rlt_dec 0 v) as [Hv|]; [|discriminate]. destruct (Rlt_dec 0 Mh2) as [HM|]; [|discriminate].
  assert (E1 : m2 = L * v ^ 2 / 2 - 3 / 4 * Cphi * v ^ 4).
  { clear W' EM N P. revert E. reads W. intros E. injection E as <- <-. field. lra. }
  replace (2 * m2 / L - v ^ 2) with (- (3 / 2) * v ^ 4 / L * Cphi) by (rewrite E1; field; exact NL).
  rewrite Rabs_mult. replace (3 / 2 * / 10 ^ 16 * v ^ 4 / Rabs L) with (3 / 2 * v ^ 4 / Rabs L * / 10 ^ 16) by (unfold Rdiv; generalize (/ 10 ^ 16) (/ Rabs L); intros; ring).
  replace (Rabs (- (3 / 2) * v ^ 4 / L)) with (3 / 2 * v ^ 4 / Rabs L).
  - apply Rmult_le_compat_l; [|lra]. apply Rmult_le_pos; [|left; apply Rinv_0_lt_compat; now apply Rabs_pos_lt].
    apply Rmult_le_pos; [lra|]. left. now apply pow_lt.
  - unfold Rdiv. rewrite !Rabs_mult, Rabs_inv, Rabs_Ropp. rewrite (Rabs_pos_eq (3 * / 2)) by lra.
    rewrite (Rabs_pos_eq (v ^ 4)) by (left; now apply pow_lt). reflexivity.
Qed.
(* error cases: non-positive input, and anything but a KeyError or a division by zero is a ValueError *)
Theorem C39_invalid_input v Mh2 C : v <= 0 \/ Mh2 <= 0 -> vMh2_to_m2Lambda v Mh2 C = Err ValueError.
Proof. intros [A|A]; unfold vMh2_to_m2Lambda; destruct (Rlt_dec 0 v); try lra; destruct (Rlt_dec 0 Mh2); try lra; reflexivity. Qed.
Theorem C39_errors m2 L C Cphi Ckin e : higgs_wcs C Cphi Ckin -> m2Lambda_to_vMh2 m2 L C = Err e ->
  e = ValueError \/
  (e = ZeroDivisionError /\ ((Rabs Cphi < / 10 ^ 16 /\ L = 0) \/ exists v2, 0 < v2 /\ 1 - 2 * Ckin * v2 = 0)).
Proof.
  intros W. unfold m2Lambda_to_vMh2. reads W. cbn zeta. intros E.
  destruct (Rlt_dec (Rabs Cphi) (/ 10 ^ 16)) as [S|S].
  - destruct (Req_EM_T L 0) as [Z|Z]; cbn [bind] in E; [injection E as <-; auto|].
    destruct (Rlt_dec 0 (2 * m2 / L)) as [P|P]; [|injection E as <-; auto].
    destruct (Req_EM_T _ 0) as [Y|Y] in E; [injection E as <-; right; split; [reflexivity|right; eauto]|].
    destruct (Rlt_dec 0 _) as [M|M] in E; [discriminate|injection E as <-; auto].
  - destruct (Rle_dec 0 (L ^ 2 - 12 * Cphi * m2)) as [Z|Z]; cbn [bind] in E; [|injection E as <-; auto].
    destruct (Rlt_dec 0 _) as [P|P] in E; [|injection E as <-; auto].
    destruct (Req_EM_T _ 0) as [Y|Y] in E; [injection E as <-; right; split; [reflexivity|right; eauto]|].
    destruct (Rlt_dec 0 _) as [M|M] in E; [discriminate|injection E as <-; auto].
Qed.

(* Without the positivity of the kinetic term the round trip may return another vacuum:
   C_phi = 1, C_kin = 1, v = 1, Mh2 = 1 comes back as v^2 = 1/3. *)
Definition ghost : cdictR := [("phi", CNum (rc 1)); ("phiBox", CNum (rc 1)); ("phiD", CNum (rc 0))].
Theorem C39_roundtrip_refuted : exists m2 L v' Mh2', vMh2_to_m2Lambda 1 1 ghost = Ok (m2, L) /\
  m2Lambda_to_vMh2 m2 L ghost = Ok (v', Mh2') /\ v' <> 1.
Proof.
  assert (E : vMh2_to_m2Lambda 1 1 ghost = Ok (1 / 4, 2)).
  { unfold vMh2_to_m2Lambda. rewrite !dec_lt by lra. cbn [getre getz getC ghost dget keqb rmap bind]. cbn. f_equal. f_equal; field. }
  assert (F : m2Lambda_to_vMh2 (1 / 4) 2 ghost = Ok (sqrt (1 / 3), 1)).
  { unfold m2Lambda_to_vMh2. assert (Ep : getre ghost "phi" = Ok 1) by reflexivity. assert (Eb : getre ghost "phiBox" = Ok 1) by reflexivity.
    assert (Ed : getre ghost "phiD" = Ok 0) by reflexivity. rewrite Ep, Eb, Ed. cbn [bind]. cbn zeta. rewrite Rabs_R1.
    destruct (Rlt_dec 1 (/ 10 ^ 16)) as [S|_]. { exfalso. assert (/ 10 ^ 16 < / 1) by (apply Rinv_lt_contravar; lra). lra. }
    replace (2 ^ 2 - 12 * 1 * (1 / 4)) with 1 by field. rewrite sqrt_1. destruct (Rle_dec 0 1) as [_|N]; [|lra]. cbn [bind].
    replace ((2 - 1) / (3 * 1)) with (1 / 3) by field. rewrite dec_lt by lra.
    destruct (Req_EM_T (1 - 2 * (1 - 0 / 4) * (1 / 3)) 0) as [Z|_]; [lra|].
    replace (1 / 3 / (1 - 2 * (1 - 0 / 4) * (1 / 3)) * (2 - 3 * 1 * (1 / 3))) with 1 by field.
    rewrite dec_lt by lra. reflexivity. }
  exists (1 / 4), 2, (sqrt (1 / 3)), 1. split; [exact E|split; [exact F|]].
  intros Q. assert (sqrt (1 / 3) * sqrt (1 / 3) = 1 / 3) by (apply sqrt_sqrt; lra). rewrite Q in H. lra.
Qed.

Print Assumptions C39_vacuum.
Print Assumptions C39_potential.
Print Assumptions C39_physical_roundtrip.
Print Assumptions C39_potential_roundtrip.
Print Assumptions C39_complete.
Print Assumptions C39_small_phi.
Print Assumptions C39_invalid_input.
Print Assumptions C39_errors.
Print Assumptions C39_roundtrip_refuted.

(* a case that meets the hypotheses: C_phi = 1/10, C_kin = 1/4, v = 1, Mh2 = 2 *)
Definition ex39 : cdictR := [("phi", CNum (rc (1 / 10))); ("phiBox", CNum (rc (1 / 2))); ("phiD", CNum (rc 1))].
Example C39_case : higgs_wcs ex39 (1 / 10) (1 / 4) /\ phi_seen (1 / 10) /\ 0 < 1 - 2 * (1 / 4) * 1 ^ 2.
Proof.
  split; [exists (1 / 2), 1; repeat split; lra|]. split; [|lra]. right. rewrite Rabs_pos_eq by lra.
  assert (/ 10 ^ 16 < / 10) by (apply Rinv_lt_contravar; lra). lra.
Qed.
