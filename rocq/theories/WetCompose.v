(* Running in two steps differs from running in one step where the anomalous dimensions depend on masses *)
From Coq Require Import List Bool ZArith QArith Reals Qreals Arith Lia Lra String Ascii.
From Verif Require Import PyBase Num SymModel EftModel NpModel NpProofs RealC WcxfModel WcxfProofs AdmData WetModel WetSpec WetMat WetPow WetProofs WetSector WetEvol WetRge WetRun WetLaws WetUnmix WetThms.
Import ListNotations.
Local Open Scope string_scope.
Local Open Scope list_scope.
Local Open Scope K_scope.
Add Field KFC : (k_field CR).

(* ---------- a two-dimensional invariant subspace ---------- *)
Definition two (i j : nat) (x y : CR) : nat -> CR := fun a => if (a =? i)%nat then x else if (a =? j)%nat then y else 0.
Lemma mvec_two n (M : mat) i j x y a : (i < n)%nat -> (j < n)%nat -> i <> j -> mvec n M (two i j x y) a = M a i * x + M a j * y.
Proof.
  intros Li Lj N. unfold mvec.
  rewrite (ksum_ext _ (fun k => (if (i =? k)%nat then M a i * x else 0) + (if (j =? k)%nat then M a j * y else 0))).
  - rewrite ksum_add. f_equal.
    + exact (sum_delta n (fun _ => M a i * x) i Li).
    + exact (sum_delta n (fun _ => M a j * y) j Lj).
  - intros k _. unfold two. destruct (Nat.eqb_spec k i) as [->|N1].
    + rewrite Nat.eqb_refl. destruct (Nat.eqb_spec j i); [congruence|]. ring.
    + destruct (Nat.eqb_spec i k); [congruence|]. destruct (Nat.eqb_spec k j) as [->|N2].
      * rewrite Nat.eqb_refl. ring.
      * destruct (Nat.eqb_spec j k); [congruence|]. ring.
Qed.
Section Two.
Variable la : linalg.
Variables (n : nat) (A : mat) (T D : nat) (t d a : CR).
Hypothesis O : eig_ok la n A.
Hypotheses (LT : (T < n)%nat) (LD : (D < n)%nat) (NTD : T <> D) (ND : t - d <> 0).
Hypothesis AT : forall i, (i < n)%nat -> A i T = two T D t a i.
Hypothesis AD : forall i, (i < n)%nat -> A i D = two T D 0 d i.
Lemma two_run g x y i : (i < n)%nat ->
  mvec n (fmA la n A g) (two T D x y) i = two T D (g t * x) (g d * y + a / (t - d) * (g t - g d) * x) i.
Proof.
  intros Li. destruct O as (AV & VU & UV).
  assert (E1 : forall i, (i < n)%nat -> mvec n (fmA la n A g) (two T D 0 1) i = g d * two T D 0 1 i).
  { apply (fm_eigvec n A _ _ _ g (two T D 0 1) d AV VU UV). intros b Lb. rewrite mvec_two by assumption. rewrite AT, AD by exact Lb.
    unfold two. destruct (b =? T)%nat; [ring|]. destruct (b =? D)%nat; ring. }
  assert (E2 : forall i, (i < n)%nat -> mvec n (fmA la n A g) (two T D 1 (a / (t - d))) i = g t * two T D 1 (a / (t - d)) i).
  { apply (fm_eigvec n A _ _ _ g (two T D 1 (a / (t - d))) t AV VU UV). intros b Lb. rewrite mvec_two by assumption. rewrite AT, AD by exact Lb.
    unfold two. destruct (Nat.eqb_spec b T) as [->|]; [ring|]. destruct (b =? D)%nat; [field; exact ND|ring]. }
  specialize (E1 i Li). specialize (E2 i Li). rewrite mvec_two in * by assumption.
  assert (X1 : fmA la n A g i D = g d * two T D 0 1 i) by (rewrite <- E1; ring).
  assert (X2 : fmA la n A g i T = g t * two T D 1 (a / (t - d)) i - g d * two T D 0 1 i * (a / (t - d))) by (rewrite <- E2, <- X1; ring).
  rewrite X1, X2. unfold two. destruct (i =? T)%nat; [ring|]. destruct (i =? D)%nat; ring.
Qed.
End Two.

(* ---------- the sector mue with five flavours ---------- *)
Definition kT : string := "TedRR_1233".
Definition kD : string := "egamma_12".
Definition iT : nat := 30%nat.
Definition iD : nat := 72%nat.
Definition t_mue : R := (8 / 3)%R.
Definition d_mue : R := (- 2 * b0s 5)%R.
Definition a_mue (p : rpar) : R := (8 * m_b p / m_mu p)%R.
Lemma mue_keys bases : exists keys, sector_keys bases "mue" 5 = Ok keys /\ List.length keys = 74%nat /\ nth iT keys "" = kT /\ nth iD keys "" = kD /\ dget coeffs "mue" = Some keys.
Proof.
  unfold sector_keys. destruct (dget coeffs "mue") as [l|] eqn:E; [|vm_compute in E; discriminate].
  cbn [String.eqb Ascii.eqb Bool.eqb]. unfold get_permissible_wcs. rewrite Z.eqb_refl, orb_true_r. cbn [rmap]. exists l. split; [reflexivity|].
  assert (X : match dget coeffs "mue" with Some l => (List.length l =? 74)%nat && String.eqb (nth iT l "") kT && String.eqb (nth iD l "") kD | None => false end = true) by (vm_compute; reflexivity).
  rewrite E in X. apply andb_true_iff in X as [X X3]. apply andb_true_iff in X as [X1 X2]. apply Nat.eqb_eq in X1. apply String.eqb_eq in X2, X3. auto.
Qed.
Lemma mue_adm bases p n A : p_ok p -> adm_reduced bases "adm_s_" "mue" 5 p = Ok (n, A) -> n = 74%nat /\
  forall i, (i < n)%nat -> mT A i iT = two iT iD (rc t_mue) (rc (a_mue p)) i /\ mT A i iD = two iT iD 0 (rc d_mue) i.
Proof.
  intros PO. unfold adm_reduced. change ("adm_s_" ++ "mue")%string with "adm_s_mue".
  assert (X : exists m, dget adm_table "adm_s_mue" = Some m /\ List.length m = 74%nat /\
    nth iT m [] = [(iT, Div (N 8) (N 3)); (iD, Div (Mul (N 8) (V Mb)) (V Mmu))] /\ nth iD m [] = [(iD, Mul (Neg (N 2)) B0)]).
  { eexists. repeat split; vm_compute; reflexivity. }
  destruct X as (m & -> & LM & RT & RD).
  destruct (amat_eval p 5 m) as [[n0 M]|] eqn:EM; [|discriminate]. cbn [bind]. unfold get_permissible_wcs. rewrite Z.eqb_refl, orb_true_r. cbn [bind reduce].
  intros E. injection E as <- <-.
  assert (N0 : n0 = 74%nat).
  { unfold amat_eval in EM. destruct (res_map (arow_eval p 5) m) as [rows|] eqn:RM; [|discriminate]. cbn [rmap] in EM. injection EM as <- _. apply res_map_length in RM. exact (eq_trans RM LM). }
  split; [exact N0|]. intros i Li. destruct PO as (_ & _ & PV). pose proof (PV Mmu) as Pmu. cbn [mval] in Pmu.
  assert (N3 : forall x, x <> 0%R -> ceqb (rc x) 0 = false) by (intros x Nx; destruct (ceqb_spec (rc x) 0) as [W|]; [now apply rc_nz in W|reflexivity]).
  split; unfold mT, two.
  - pose proof (amat_get p 5 m n0 M iT i EM) as G. rewrite RT in G. cbn [dget] in G. cbn [keqb EqKey_nat] in G.
    destruct (Nat.eqb_spec i iT) as [->|NT].
    + destruct G as (z & Ez & ->). cbn [aeval bind] in Ez. rewrite N3 in Ez by lra. injection Ez as <-. rewrite <- rc_div by lra. reflexivity.
    + destruct (Nat.eqb_spec i iD) as [->|ND]; [|exact G].
      destruct G as (z & Ez & ->). cbn [aeval bind rmap mval] in Ez. rewrite N3 in Ez by lra. injection Ez as <-.
      rewrite <- rc_mul, <- rc_div by lra. reflexivity.
  - pose proof (amat_get p 5 m n0 M iD i EM) as G. rewrite RD in G. cbn [dget] in G. cbn [keqb EqKey_nat] in G.
    destruct (Nat.eqb_spec i iD) as [->|ND].
    + destruct G as (z & Ez & ->). cbn [aeval bind rmap] in Ez. injection Ez as <-. change (iD =? iT)%nat with false. cbv iota.
      rewrite <- rc_opp, <- rc_mul. f_equal. unfold d_mue, b0s, b0g. field.
    + destruct (Nat.eqb_spec i iT) as [->|]; exact G.
Qed.
Section Mue.
Variable la : linalg.
Variable bases : @basis_reg CR.
Local Notation run_sector := (run_sector la bases).
Definition only_TD (C : dict string CR) : Prop := forall k, k <> kT -> k <> kD -> dgetd C k 0 = 0.
Definition pwr (eta x : R) : R := Rpower eta (x / (2 * b0s 5)).
Definition mixR (eta : R) (p : rpar) : R := (a_mue p / (t_mue - d_mue) * (pwr eta t_mue - pwr eta d_mue))%R.
Lemma td_mue : (t_mue - d_mue)%R = 18%R.
Proof. unfold t_mue, d_mue, b0s. field. Qed.
Lemma pw_rc eta x : pw 5 eta (rc x) = rc (pwr eta x).
Proof. unfold pw, pwr. rewrite <- rc_div by (unfold b0s; lra). apply cpow_rc. Qed.
Lemma mue_run C eta pi po d si so : p_ok pi -> p_ok po -> adm_ok la bases "mue" 5 pi ->
  scale_C kD pi = Ok si -> scale_C kD po = Ok so -> (0 < so)%R -> only_TD C ->
  run_sector "mue" C eta 5 pi po 0 1 = Ok d ->
  only_TD d /\ dgetd d kT 0 = rc (pwr eta t_mue) * dgetd C kT 0 /\
  dgetd d kD 0 = rc (pwr eta d_mue * si / so) * dgetd C kD 0 + rc (mixR eta pi / so) * dgetd C kT 0.
Proof.
  intros PI' PO O SI SO PS TD E. destruct (mue_keys bases) as (keys & EK & LK & NT & ND & _).
  destruct (run_sector_keys _ _ _ _ _ _ _ _ _ _ _ E) as [EK' _]. assert (DK : dkeys d = keys) by congruence.
  destruct (sector_keys_spec _ _ _ _ EK) as [NDU _].
  assert (ES : dget sectors "mue" = Some "mue") by (vm_compute; reflexivity).
  assert (OUT : forall k, ~ In k keys -> dgetd d k 0 = 0) by (intros k N; unfold dgetd; rewrite (proj2 (dget_None d k)); [reflexivity|congruence]).
  assert (IKT : In kT keys) by (rewrite <- NT; apply nth_In; rewrite LK; unfold iT; lia).
  assert (IKD : In kD keys) by (rewrite <- ND; apply nth_In; rewrite LK; unfold iD; lia).
  destruct (run_sector_mat _ _ _ _ _ _ _ _ _ _ _ _ ES ltac:(discriminate) E) as [Z|(M & EM & R)].
  { rewrite DK in Z. destruct (Z _ IKT) as [-> ->]. destruct (Z _ IKD) as [-> ->]. split; [|split; ring].
    intros k _ _. destruct (in_dec string_dec k keys) as [I|N]; [apply (Z _ I)|apply (OUT _ N)]. }
  rewrite DK in R, EM. destruct (sector_matrix_form _ _ _ _ _ _ _ _ _ _ _ EM) as (Us & Ue & EU & EE & F).
  apply ue0 in EE. subst Ue. unfold us_of in EU. cbn [Z.eqb Pos.eqb] in EU. apply getUs_inv in EU as (A & ER & ->).
  destruct (mue_adm bases pi _ A PI' ER) as [_ COL]. pose proof (O _ _ ER) as OA. rewrite LK in *.
  assert (UT : forall j, (j < 74)%nat -> nth j keys "" = kT -> j = iT).
  { intros j L Q. apply (proj1 (NoDup_nth keys "") NDU j iT); [rewrite LK; exact L|rewrite LK; unfold iT; lia|now rewrite Q, NT]. }
  assert (UD : forall j, (j < 74)%nat -> nth j keys "" = kD -> j = iD).
  { intros j L Q. apply (proj1 (NoDup_nth keys "") NDU j iD); [rewrite LK; exact L|rewrite LK; unfold iD; lia|now rewrite Q, ND]. }
  assert (V : forall i, (i < 74)%nat -> exists ti, scale_C (nth i keys "") po = Ok ti /\ ti <> 0%R /\
    mvec 74 M (cin C keys) i = two iT iD (rc (pwr eta t_mue) * dgetd C kT 0) (rc (pwr eta d_mue) * (rc si * dgetd C kD 0) + rc (mixR eta pi) * dgetd C kT 0) i / rc ti).
  { intros i Li. destruct (F iT ltac:(unfold iT; lia)) as (s0 & _ & G0). destruct (G0 i Li) as (ti & Ti & NZ & _). exists ti. repeat split; auto.
    transitivity (mvec 74 (fmA la 74 (mT A) (pw 5 eta)) (two iT iD (dgetd C kT 0) (rc si * dgetd C kD 0)) i / rc ti).
    - rewrite kdiv_def. unfold mvec. rewrite <- ksum_scale_r. apply ksum_ext. intros j J. apply in_seq in J. cbv beta.
      destruct (F j ltac:(lia)) as (sj & Sj & G). destruct (G i Li) as (ti' & Ti' & _ & ->). rewrite Ti in Ti'. injection Ti' as <-.
      unfold two, cin. generalize (fmA la 74 (mT A) (pw 5 eta) i j). intros u. destruct (Nat.eqb_spec j iT) as [->|N1].
      + rewrite NT. rewrite NT in Sj. apply unscaled_C in Sj; [|vm_compute; reflexivity]. subst sj. change (rc 1) with (1 : CR). rewrite kdiv_def. ring.
      + destruct (Nat.eqb_spec j iD) as [->|N2].
        * rewrite ND. rewrite ND in Sj. rewrite SI in Sj. injection Sj as <-. rewrite kdiv_def. ring.
        * rewrite (TD (nth j keys "")); [ring| |].
          -- intros Q. apply N1. apply UT; [lia|exact Q].
          -- intros Q. apply N2. apply UD; [lia|exact Q].
    - f_equal. rewrite (two_run la 74 (mT A) iT iD (rc t_mue) (rc d_mue) (rc (a_mue pi)) OA) with (g := pw 5 eta); try exact Li.
      + rewrite !pw_rc. unfold two, mixR. destruct (i =? iT)%nat; [reflexivity|]. destruct (i =? iD)%nat; [|reflexivity].
        rewrite <- !rc_sub. rewrite rc_mul, rc_div by (rewrite td_mue; lra). reflexivity.
      + unfold iT; lia.
      + unfold iD; lia.
      + discriminate.
      + rewrite <- rc_sub, td_mue. apply rc_nz. lra.
      + intros b Lb. apply (COL b Lb).
      + intros b Lb. apply (COL b Lb). }
  split; [|split].
  - intros k N1 N2. destruct (in_dec string_dec k keys) as [I|N]; [|apply OUT, N]. destruct (keys_index _ _ I) as (i & Li & ->). rewrite LK in Li.
    rewrite R by exact Li. destruct (V i Li) as (ti & _ & NZ & ->). unfold two.
    destruct (Nat.eqb_spec i iT) as [->|]; [congruence|]. destruct (Nat.eqb_spec i iD) as [->|]; [congruence|]. rewrite kdiv_def. ring.
  - rewrite <- NT at 1. rewrite R by (unfold iT; lia). destruct (V iT ltac:(unfold iT; lia)) as (ti & Ti & NZ & ->). rewrite NT in Ti.
    apply unscaled_C in Ti; [|vm_compute; reflexivity]. subst ti. unfold two. rewrite Nat.eqb_refl. change (rc 1) with (1 : CR). field. intros Q. apply (f_equal fst) in Q. cbn in Q. lra.
  - rewrite <- ND at 1. rewrite R by (unfold iD; lia). destruct (V iD ltac:(unfold iD; lia)) as (ti & Ti & NZ & ->). rewrite ND in Ti.
    rewrite SO in Ti. injection Ti as <-. unfold two. change (iD =? iT)%nat with false. rewrite Nat.eqb_refl. cbv iota.
    rewrite !rc_div, rc_mul by exact NZ. field. now apply rc_nz.
Qed.
Lemma lin3 (A B X Y Z W V : R) c : rc A * (rc B * 0 + rc X * c) + rc Y * (rc Z * c) = rc W * 0 + rc V * c -> c <> 0 -> (A * X + Y * Z = V)%R.
Proof.
  intros Q N. assert (K : rc (A * X + Y * Z - V) * c = 0).
  { rewrite rc_sub, rc_add, !rc_mul. transitivity (rc A * (rc B * 0 + rc X * c) + rc Y * (rc Z * c) - (rc W * 0 + rc V * c)); [ring|]. rewrite Q. ring. }
  apply kmul_integral in K as [K|K]; [|contradiction]. apply (f_equal fst) in K. cbn in K. lra.
Qed.
(* the difference between two steps and one *)
Lemma mue_compose C pa pb pc d1 d2 d3 : p_ok pa -> p_ok pb -> p_ok pc -> adm_ok la bases "mue" 5 pa -> adm_ok la bases "mue" 5 pb ->
  only_TD C -> dgetd C kD 0 = 0 -> dgetd C kT 0 <> 0 ->
  run_sector "mue" C (alpha_s pa / alpha_s pb) 5 pa pb 0 1 = Ok d1 ->
  run_sector "mue" d1 (alpha_s pb / alpha_s pc) 5 pb pc 0 1 = Ok d2 ->
  run_sector "mue" C (alpha_s pa / alpha_s pc) 5 pa pc 0 1 = Ok d3 ->
  (m_b pa / m_mu pa <> m_b pb / m_mu pb)%R -> alpha_s pb <> alpha_s pc -> dgetd d2 kD 0 <> dgetd d3 kD 0.
Proof.
  intros PA PB PC OA OB TD C0 C1 E1 E2 E3 NM NA.
  assert (SC : forall p, p_ok p -> exists s, scale_C kD p = Ok s /\ (0 < s)%R).
  { intros p PO. apply scale_ok; [exact PO|]. apply kmem_In. vm_compute. reflexivity. }
  destruct (SC pa PA) as (sa & Sa & Pa). destruct (SC pb PB) as (sb & Sb & Pb). destruct (SC pc PC) as (sc & Sc & Pc).
  destruct (mue_run _ _ _ _ _ _ _ PA PB OA Sa Sb Pb TD E1) as (TD1 & T1 & D1).
  destruct (mue_run _ _ _ _ _ _ _ PB PC OB Sb Sc Pc TD1 E2) as (_ & _ & D2).
  destruct (mue_run _ _ _ _ _ _ _ PA PC OA Sa Sc Pc TD E3) as (_ & _ & D3).
  rewrite D2, D3, D1, T1, C0. intros Q. apply NM.
  destruct PA as (A1 & _ & MA). destruct PB as (A2 & _ & MB). destruct PC as (A3 & _ & MC).
  set (e1 := (alpha_s pa / alpha_s pb)%R) in *. set (e2 := (alpha_s pb / alpha_s pc)%R) in *.
  assert (P1 : (0 < e1)%R) by now apply Rdiv_lt_0_compat. assert (P2 : (0 < e2)%R) by now apply Rdiv_lt_0_compat.
  assert (E12 : (alpha_s pa / alpha_s pc)%R = (e1 * e2)%R) by (unfold e1, e2; field; lra). rewrite E12 in Q.
  assert (PM : forall x, pwr (e1 * e2) x = (pwr e1 x * pwr e2 x)%R) by (intros x; unfold pwr; symmetry; now apply Rpower_mult_distr).
  assert (PP : forall e x, (0 < pwr e x)%R) by (intros; unfold pwr, Rpower; apply exp_pos).
  assert (N2 : e2 <> 1%R). { unfold e2. intros W. apply NA. apply (f_equal (fun x => x * alpha_s pc)%R) in W. field_simplify in W; lra. }
  assert (TDN : pwr e2 t_mue <> pwr e2 d_mue).
  { unfold pwr, Rpower. intros W. apply exp_inv in W. assert (L0 : ln e2 = 0%R).
    { unfold t_mue, d_mue, b0s in W. field_simplify in W. lra. }
    apply N2. rewrite <- (exp_ln e2 P2), L0. apply exp_0. }
  apply lin3 in Q; [|exact C1]. unfold mixR in Q. rewrite !PM in Q. rewrite td_mue in Q. unfold a_mue in Q.
  pose proof (MA Mmu) as M1. pose proof (MB Mmu) as M2. cbn [mval] in M1, M2.
  set (x := (m_b pa / m_mu pa)%R) in *. set (y := (m_b pb / m_mu pb)%R) in *.
  replace (8 * m_b pa / m_mu pa)%R with (8 * x)%R in Q by (unfold x; field; lra).
  replace (8 * m_b pb / m_mu pb)%R with (8 * y)%R in Q by (unfold y; field; lra).
  pose proof (PP e1 t_mue) as Q1. set (u1 := pwr e1 t_mue) in *. set (v1 := pwr e1 d_mue) in *. set (u2 := pwr e2 t_mue) in *. set (v2 := pwr e2 d_mue) in *.
  assert (K : ((x - y) * (u1 * (u2 - v2)) = 0)%R).
  { match type of Q with ?l = ?r => transitivity ((r - l) * sc * 18 / 8)%R; [field; repeat split; lra|rewrite Q; unfold Rdiv; ring] end. }
  apply Rmult_integral in K as [K|K]; [lra|]. apply Rmult_integral in K as [K|K]; lra.
Qed.
End Mue.
