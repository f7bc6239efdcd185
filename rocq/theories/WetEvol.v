(* Proofs about the evolution matrices of WET: neutrality, composition, operators that do not mix, RGE *)
From Coq Require Import List Bool ZArith Reals Arith Lia Lra String Ascii.
From Verif Require Import PyBase Num SymModel EftModel NpModel NpProofs RealC WcxfModel WcxfProofs AdmData WetModel WetSpec WetMat WetPow WetProofs WetSector.
Import ListNotations.
Local Open Scope string_scope.
Local Open Scope list_scope.
Local Open Scope K_scope.
Add Field KFE : (k_field CR).

(* eta ** (w / (2 b0)) *)
Definition pw (f : Z) (eta : R) (w : CR) : CR := cpow eta (w / rc (2 * b0s f)).
Lemma pw_mul f x y w : (0 < x)%R -> (0 < y)%R -> pw f (x * y) w = pw f x w * pw f y w.
Proof. intros. unfold pw. now apply cpow_mul. Qed.
Lemma pw_1 f w : pw f 1 w = 1. Proof. apply cpow_1. Qed.
Lemma rc2b0 f : rc (2 * b0s f) <> 0.
Proof. apply rc_nz. pose proof (b0s_nz f). lra. Qed.
Lemma pw_0 f x : pw f x 0 = 1.
Proof. unfold pw. replace (0 / rc (2 * b0s f)) with (0 : CR); [apply cpow_zero|]. field. apply rc2b0. Qed.

Section Evol.
Variable la : linalg.
Variable bases : @basis_reg CR.
Local Notation run_sector := (run_sector la bases).
Local Notation sector_matrix := (sector_matrix la bases).
Local Notation getUs := (getUs la bases).
Local Notation getUe := (getUe la bases).
Definition ew (n : nat) (A : mat) : nat -> CR := fst (eig la n A).
Definition ev (n : nat) (A : mat) : mat := snd (eig la n A).
Definition eu (n : nat) (A : mat) : mat := minv la n (ev n A).
(* g(A) by the eigen-decomposition numpy returns *)
Definition fmA (n : nat) (A : mat) (g : CR -> CR) : mat := fm n (ew n A) (ev n A) (eu n A) g.

Lemma getUs_form cls eta f p n A : adm_reduced bases "adm_s_" cls f p = Ok (n, A) -> getUs cls eta f p = Ok (n, fmA n (mT A) (pw f eta)).
Proof. intros E. unfold WetModel.getUs, admeig. rewrite E. reflexivity. Qed.
Lemma getUs_inv cls eta f p n U : getUs cls eta f p = Ok (n, U) ->
  exists A, adm_reduced bases "adm_s_" cls f p = Ok (n, A) /\ U = fmA n (mT A) (pw f eta).
Proof.
  unfold WetModel.getUs, admeig. destruct (adm_reduced bases "adm_s_" cls f p) as [[m A]|]; [|discriminate]. cbn [bind fst snd].
  intros E. injection E as <- <-. exists A. auto.
Qed.
Lemma getUe_inv cls eta f p n U : getUe cls eta f p = Ok (n, U) ->
  exists A B, adm_reduced bases "adm_s_" cls f p = Ok (n, A) /\ adm_reduced bases "adm_e_" cls f p = Ok (n, B) /\
  (2 * b0s f * alpha_s p <> 0)%R /\
  U = mmul n (mmul n (fun i j => rc (- alpha_e p / (2 * b0s f * alpha_s p)) * ev n (mT A) i j)
             (kmat n (mT B) (fun a b => ue_factor eta (a / rc (2 * b0s f)) (b / rc (2 * b0s f))) (ew n (mT A)) (ev n (mT A)) (eu n (mT A))))
             (eu n (mT A)).
Proof.
  unfold WetModel.getUe, admeig. destruct (adm_reduced bases "adm_e_" cls f p) as [[m B]|]; [|discriminate]. cbn [bind].
  destruct (adm_reduced bases "adm_s_" cls f p) as [[m' A]|]; [|discriminate]. cbn [bind fst snd].
  destruct (Nat.eqb_spec m m') as [->|]; [|discriminate]. cbn [negb]. unfold fdiv. destruct (Req_EM_T _ 0) as [|NZ]; [discriminate|]. cbn [bind].
  intros E. injection E as <- <-. exists A, B. repeat split; auto.
Qed.
Lemma getUe_1 cls f p n U i j : getUe cls 1 f p = Ok (n, U) -> U i j = 0.
Proof.
  intros E. apply getUe_inv in E as (A & B & _ & _ & _ & ->). unfold mmul at 1. apply ksum_zero. intros k _.
  replace (mmul n _ _ i k) with (0 : CR); [ring|]. symmetry. unfold mmul. apply ksum_zero. intros l _. unfold kmat.
  rewrite ue_factor_1. ring.
Qed.

(* the entries of the matrix that evolves a sector *)
Lemma sector_matrix_form cls keys eta f pi po qed qcd M :
  sector_matrix cls keys eta f pi po qed qcd = Ok M ->
  exists Us Ue, us_of la bases cls eta f pi qcd (List.length keys) = Ok (List.length keys, Us) /\
    ue_of la bases cls eta f pi qed qcd (List.length keys) = Ok (List.length keys, Ue) /\
    forall j, (j < List.length keys)%nat -> exists s, scale_C (nth j keys "") pi = Ok s /\
    forall i, (i < List.length keys)%nat -> exists t, scale_C (nth i keys "") po = Ok t /\ t <> 0%R /\
      M i j = (Us i j + Ue i j) * rc s / rc t.
Proof.
  unfold WetProofs.sector_matrix. destruct (res_map (fun k => scale_C k pi) keys) as [sc|] eqn:ES; [|discriminate]. cbn [bind].
  destruct (us_of _ _ _ _ _ _ _ _) as [[n Us]|]; [|discriminate]. cbn [bind].
  destruct (ue_of _ _ _ _ _ _ _ _ _) as [[m Ue]|]; [|discriminate]. cbn [bind fst snd].
  destruct (Nat.eqb_spec n (List.length keys)) as [->|]; [|discriminate]. destruct (Nat.eqb_spec m (List.length keys)) as [->|]; [|discriminate].
  cbn [andb]. destruct (res_map (out_scale po) keys) as [t|] eqn:ET; [|discriminate]. cbn [rmap]. intros E. injection E as <-.
  exists Us, Ue. repeat split; auto. intros j Lj. exists (nth j sc 0%R).
  split; [apply (res_map_nth _ _ _ _ _ _ ES), nth_error_nth'; exact Lj|]. intros i Li.
  pose proof (res_map_nth _ _ _ i (nth i keys "") 0%R ET (nth_error_nth' keys "" Li)) as Q. unfold out_scale in Q.
  destruct (scale_C (nth i keys "") po) as [x|]; [|discriminate]. cbn [bind] in Q. destruct (Req_EM_T x 0); [discriminate|]. injection Q as Q.
  exists (nth i t 0%R). rewrite <- Q. auto.
Qed.

Lemma ue0 cls eta f p qcd n U : ue_of la bases cls eta f p 0 qcd n = Ok (n, U) -> U = fun _ _ => 0.
Proof. unfold ue_of. cbn [Z.eqb]. intros E. injection E as <-. reflexivity. Qed.
(* the evolution for one coefficient *)
Lemma keys_index (keys : list string) k : In k keys -> exists j, (j < List.length keys)%nat /\ k = nth j keys "".
Proof. intros I. destruct (In_nth _ _ "" I) as (j & L & <-). eauto. Qed.
(* a sector evolves by a matrix, or not at all *)
Lemma run_sector_mat s C eta f pi po qed qcd d cls :
  dget sectors s = Some cls -> cls <> "inv" -> run_sector s C eta f pi po qed qcd = Ok d ->
  (forall k, In k (dkeys d) -> dgetd C k 0 = 0 /\ dgetd d k 0 = 0) \/
  exists M, sector_matrix cls (dkeys d) eta f pi po qed qcd = Ok M /\
    forall j, (j < List.length (dkeys d))%nat -> dgetd d (nth j (dkeys d) "") 0 = mvec (List.length (dkeys d)) M (cin C (dkeys d)) j.
Proof.
  intros ES NI E. destruct (run_sector_keys _ _ _ _ _ _ _ _ _ _ _ E) as [EK _].
  destruct (run_sector_get _ _ _ _ _ _ _ _ _ _ _ _ _ ES EK E) as [_ R]. unfold is_inv in R.
  destruct (String.eqb_spec cls "inv"); [contradiction|].
  destruct R as [[X _]|[[_ R]|(_ & M & EM & R)]]; [discriminate| |].
  - left. intros k I. destruct (keys_index _ _ I) as (j & L & ->). destruct (R j L) as [A B]. split; [exact A|]. now apply dgetd_Some.
  - right. exists M. split; auto. intros j L. apply dgetd_Some. now apply R.
Qed.
Lemma mvec_eye n (x : nat -> CR) i : (i < n)%nat -> mvec n meye x i = x i.
Proof.
  intros L. unfold mvec. rewrite (ksum_ext _ (fun k => if (i =? k)%nat then x k else 0)); [now apply sum_delta|].
  intros k _. unfold meye. destruct (i =? k)%nat; ring.
Qed.
Lemma mvec_ext n A B x y i : (i < n)%nat -> meqn n A B -> (forall j, (j < n)%nat -> x j = y j) -> mvec n A x i = mvec n B y i.
Proof. intros L E F. unfold mvec. apply ksum_ext. intros k I. apply in_seq in I. now rewrite E, F by lia. Qed.
Lemma adm_fm cls f p n A : adm_reduced bases "adm_s_" cls f p = Ok (n, A) -> adm_ok la bases cls f p ->
  meqn n (mmul n (mT A) (ev n (mT A))) (fun i j => ew n (mT A) j * ev n (mT A) i j) /\
  meqn n (mmul n (ev n (mT A)) (eu n (mT A))) meye /\ meqn n (mmul n (eu n (mT A)) (ev n (mT A))) meye.
Proof. intros E O. exact (O n A E). Qed.

(* ---------- running to the same scale ---------- *)
Theorem run_sector_same s C f p qed qcd d cls :
  dget sectors s = Some cls -> adm_ok la bases cls f p -> run_sector s C 1 f p p qed qcd = Ok d ->
  forall k, In k (dkeys d) -> dgetd d k 0 = dgetd C k 0.
Proof.
  intros ES O E k I. destruct (string_dec cls "inv") as [->|NI].
  { destruct (run_sector_keys _ _ _ _ _ _ _ _ _ _ _ E) as [EK _].
    destruct (run_sector_get _ _ _ _ _ _ _ _ _ _ _ _ _ ES EK E) as [_ R]. destruct (keys_index _ _ I) as (j & L & ->).
    destruct R as [[_ R]|[[X _]|(X & _)]]; try discriminate X. rewrite (dgetd_Some _ _ _ _ (R j L)). reflexivity. }
  destruct (run_sector_mat _ _ _ _ _ _ _ _ _ _ ES NI E) as [Z|(M & EM & R)]; [destruct (Z k I); congruence|].
  destruct (keys_index _ _ I) as (j & L & ->). rewrite R by exact L. clear R I. set (keys := dkeys d) in *.
  destruct (sector_matrix_form _ _ _ _ _ _ _ _ _ EM) as (Us & Ue & EU & EE & F).
  assert (UE : forall i k, Ue i k = 0).
  { intros i k. unfold ue_of in EE. destruct (qed =? 0)%Z; [injection EE as <-; reflexivity|].
    destruct (qed =? 1)%Z; [|discriminate]. destruct (qcd =? 0)%Z; exact (getUe_1 _ _ _ _ _ i k EE). }
  assert (US : meqn (List.length keys) Us meye).
  { unfold us_of in EU. destruct (qcd =? 0)%Z; [injection EU as <-; apply meqn_refl|].
    destruct (qcd =? 1)%Z; [|discriminate]. apply getUs_inv in EU as (A & EA & ->).
    destruct (adm_fm _ _ _ _ _ EA O) as (_ & VU & _). apply (fm_one _ _ _ _ _ VU). intros; apply pw_1. }
  transitivity (mvec (List.length keys) meye (cin C keys) j); [|now apply mvec_eye]. apply mvec_ext; auto.
  intros a b La Lb. destruct (F b Lb) as (sb & Sb & G). destruct (G a La) as (ta & Ta & NZ & ->). rewrite UE, (US a b La Lb).
  unfold meye. destruct (Nat.eqb_spec a b) as [->|]; [rewrite Sb in Ta; injection Ta as <-|]; field; now apply rc_nz.
Qed.

(* ---------- a coefficient no other one mixes into ---------- *)
(* x f(A) = f(lambda) x for a left eigenvector x *)
Lemma fm_lefteig n A w v u g x l : meqn n (mmul n A v) (fun i j => w j * v i j) -> meqn n (mmul n v u) meye -> meqn n (mmul n u v) meye ->
  (forall j, (j < n)%nat -> mvec n (mT A) x j = l * x j) -> forall j, (j < n)%nat -> mvec n (mT (fm n w v u g)) x j = g l * x j.
Proof.
  intros AV VU UV AX j Lj.
  assert (TM : forall P Q i k, mT (mmul n P Q) i k = mmul n (mT Q) (mT P) i k).
  { intros P Q i k. unfold mT, mmul. apply ksum_ext. intros; ring. }
  rewrite (mvec_ext n (mT (fm n w v u g)) (fm n w (mT u) (mT v) g) x x j Lj).
  - apply (fm_eigvec n (mT A) w (mT u) (mT v) g x l); auto.
    + intros a b La Lb. rewrite <- TM. unfold mT at 1. rewrite (left_eig n A w v u AV VU UV b a Lb La). reflexivity.
    + intros a b La Lb. rewrite <- TM. unfold mT. rewrite (VU b a Lb La). unfold meye. now rewrite Nat.eqb_sym.
    + intros a b La Lb. rewrite <- TM. unfold mT. rewrite (UV b a Lb La). unfold meye. now rewrite Nat.eqb_sym.
  - intros a b La Lb. unfold mT at 1. unfold fm. rewrite !(fmat_entry n) by assumption. apply ksum_ext. intros; unfold mT; ring.
  - auto.
Qed.
Theorem unmixed s C eta f pi po d cls n A j g :
  dget sectors s = Some cls -> cls <> "inv" -> adm_ok la bases cls f pi ->
  adm_reduced bases "adm_s_" cls f pi = Ok (n, A) -> (j < List.length (dkeys d))%nat ->
  (forall a, (a < n)%nat -> A a j = if (j =? a)%nat then g else 0) ->
  run_sector s C eta f pi po 0 1 = Ok d ->
  dgetd C (nth j (dkeys d) "") 0 = 0 /\ dgetd d (nth j (dkeys d) "") 0 = 0 \/
  exists si so, scale_C (nth j (dkeys d) "") pi = Ok si /\ scale_C (nth j (dkeys d) "") po = Ok so /\ so <> 0%R /\
  dgetd d (nth j (dkeys d) "") 0 = pw f eta g * rc si / rc so * dgetd C (nth j (dkeys d) "") 0.
Proof.
  intros ES NI O EA Lj COL E.
  destruct (run_sector_mat _ _ _ _ _ _ _ _ _ _ ES NI E) as [Z|(M & EM & R)].
  { left. apply Z. now apply nth_In. }
  right. rewrite R by exact Lj. clear R. set (keys := dkeys d) in *.
  destruct (sector_matrix_form _ _ _ _ _ _ _ _ _ EM) as (Us & Ue & EU & EE & F).
  apply ue0 in EE. subst Ue.
  unfold us_of in EU. cbn [Z.eqb Pos.eqb] in EU. rewrite (getUs_form _ _ _ _ _ _ EA) in EU. injection EU as EN <-. subst n.
  destruct (F j Lj) as (si & Si & G). destruct (G j Lj) as (so & So & NZ & _). exists si, so. repeat split; auto.
  destruct (adm_fm _ _ _ _ _ EA O) as (AV & VU & UV).
  assert (COLU : forall b, (b < List.length keys)%nat -> fmA (List.length keys) (mT A) (pw f eta) j b = if (j =? b)%nat then pw f eta g else 0).
  { intros b Lb. pose proof (fm_lefteig _ _ _ _ _ (pw f eta) (fun b => if (j =? b)%nat then 1 else 0) g AV VU UV) as LE.
    assert (LV : forall (N : mat) c, mvec (List.length keys) N (fun b => if (j =? b)%nat then 1 else 0) c = N c j).
    { intros N c. unfold mvec. rewrite (ksum_ext _ (fun k => if (j =? k)%nat then N c k else 0)); [now apply sum_delta|].
      intros k _. destruct (j =? k)%nat; ring. }
    specialize (LE ltac:(intros c Lc; rewrite LV; unfold mT; rewrite COL by exact Lc; destruct (j =? c)%nat; ring) b Lb).
    rewrite LV in LE. unfold mT in LE at 1. unfold fmA. rewrite LE. destruct (j =? b)%nat; ring. }
  unfold mvec. rewrite (ksum_ext _ (fun b => if (j =? b)%nat then pw f eta g * rc si / rc so * cin C keys b else 0)).
  { now rewrite sum_delta. }
  intros b I. apply in_seq in I. destruct (F b ltac:(lia)) as (sb & Sb & G'). destruct (G' j Lj) as (so' & So' & _ & ->).
  rewrite So in So'. injection So' as <-. rewrite COLU by lia. cbv beta. destruct (Nat.eqb_spec j b) as [->|].
  - rewrite Si in Sb. injection Sb as <-. field. now apply rc_nz.
  - field. now apply rc_nz.
Qed.

(* ---------- composition ---------- *)
(* the evolution matrices do not depend on the choice of the eigenvectors *)
Lemma fmA_same n A B g : meqn n A B -> eig_ok la n A -> eig_ok la n B -> meqn n (fmA n A g) (fmA n B g).
Proof.
  intros E (AV & VU & UV) (BV & VU' & UV'). unfold fmA, fm.
  apply (fmat_unique n A (ew n A) (ew n B) (ev n A) (eu n A) (ev n B) (eu n B)); auto.
  intros i j Li Lj. rewrite (mmul_ext n A B _ _ E (meqn_refl n _) i j Li Lj). now apply BV.
Qed.
Theorem run_sector_compose s C eta1 eta2 f pa pb pc d1 d2 d3 cls n A B :
  dget sectors s = Some cls -> (0 < eta1)%R -> (0 < eta2)%R ->
  adm_reduced bases "adm_s_" cls f pa = Ok (n, A) -> adm_reduced bases "adm_s_" cls f pb = Ok (n, B) -> meqn n A B ->
  adm_ok la bases cls f pa -> adm_ok la bases cls f pb ->
  run_sector s C eta1 f pa pb 0 1 = Ok d1 -> run_sector s d1 eta2 f pb pc 0 1 = Ok d2 ->
  run_sector s C (eta1 * eta2) f pa pc 0 1 = Ok d3 ->
  forall k, dgetd d2 k 0 = dgetd d3 k 0.
Proof.
  intros ES P1 P2 EA EB AB OA OB E1 E2 E3 k.
  destruct (run_sector_keys _ _ _ _ _ _ _ _ _ _ _ E1) as [K1 _]. destruct (run_sector_keys _ _ _ _ _ _ _ _ _ _ _ E2) as [K2 _].
  destruct (run_sector_keys _ _ _ _ _ _ _ _ _ _ _ E3) as [K3 _].
  assert (D2 : dkeys d2 = dkeys d1) by congruence. assert (D3 : dkeys d3 = dkeys d1) by congruence. clear K2 K3.
  destruct (in_dec string_dec k (dkeys d1)) as [I|N].
  2: { unfold dgetd. rewrite (proj2 (dget_None d2 k)), (proj2 (dget_None d3 k)) by congruence. reflexivity. }
  destruct (string_dec cls "inv") as [->|NI].
  { destruct (run_sector_get _ _ _ _ _ _ _ _ _ _ _ _ _ ES K1 E1) as [_ R1].
    destruct (run_sector_get _ _ _ _ _ _ _ _ _ _ _ _ _ ES K1 E2) as [_ R2].
    destruct (run_sector_get _ _ _ _ _ _ _ _ _ _ _ _ _ ES K1 E3) as [_ R3].
    destruct (keys_index _ _ I) as (j & L & ->).
    destruct R1 as [[_ R1]|[[X _]|(X & _)]]; try discriminate X. destruct R2 as [[_ R2]|[[X _]|(X & _)]]; try discriminate X.
    destruct R3 as [[_ R3]|[[X _]|(X & _)]]; try discriminate X.
    rewrite (dgetd_Some _ _ _ _ (R2 j L)), (dgetd_Some _ _ _ _ (R3 j L)). unfold cin. now rewrite (dgetd_Some _ _ _ _ (R1 j L)). }
  destruct (run_sector_mat _ _ _ _ _ _ _ _ _ _ ES NI E3) as [Z3|(M3 & EM3 & R3)].
  - (* C vanishes on this sector *)
    assert (Z1 : forall k, In k (dkeys d1) -> dgetd d1 k 0 = 0).
    { intros k' I'. destruct (run_sector_mat _ _ _ _ _ _ _ _ _ _ ES NI E1) as [Z|(M & _ & R)]; [now apply Z|].
      destruct (keys_index _ _ I') as (j & L & ->). rewrite R by exact L. apply mvec_zero. intros i Li. unfold cin. apply Z3. rewrite D3. now apply nth_In. }
    assert (Z2 : dgetd d2 k 0 = 0).
    { destruct (run_sector_mat _ _ _ _ _ _ _ _ _ _ ES NI E2) as [Z|(M & _ & R)]; [apply Z; now rewrite D2|].
      rewrite D2 in R. destruct (keys_index _ _ I) as (j & L & ->). rewrite R by exact L. apply mvec_zero. intros i Li. apply Z1. now apply nth_In. }
    rewrite Z2. symmetry. apply Z3. now rewrite D3.
  - rewrite D3 in *. destruct (keys_index _ _ I) as (j & L & ->). rewrite R3 by exact L. clear R3.
    set (keys := dkeys d1) in *. set (m := List.length keys) in *.
    destruct (sector_matrix_form _ _ _ _ _ _ _ _ _ EM3) as (U3 & X3 & EU3 & EX3 & F3).
  apply ue0 in EX3. subst X3.
    unfold us_of in EU3. cbn [Z.eqb Pos.eqb] in EU3. rewrite (getUs_form _ _ _ _ _ _ EA) in EU3. injection EU3 as EN <-. fold m in EN. subst n.
    assert (MU : forall c e, (c < m)%nat -> (e < m)%nat ->
      fmA m (mT A) (pw f (eta1 * eta2)) c e = ksum (map (fun x => fmA m (mT B) (pw f eta2) c x * fmA m (mT A) (pw f eta1) x e) (seq 0 m))).
    { intros c e Lc Le. transitivity (mmul m (fmA m (mT A) (pw f eta2)) (fmA m (mT A) (pw f eta1)) c e).
      - destruct (adm_fm _ _ _ _ _ EA OA) as (_ & _ & UV). unfold fmA. rewrite (fm_mul m _ _ _ _ _ UV c e Lc Le).
        unfold fm. rewrite !(fmat_entry m) by assumption. apply ksum_ext. intros x _. cbv beta. rewrite pw_mul by assumption. ring.
      - change (mmul m (fmA m (mT A) (pw f eta2)) (fmA m (mT A) (pw f eta1)) c e = mmul m (fmA m (mT B) (pw f eta2)) (fmA m (mT A) (pw f eta1)) c e).
        apply mmul_ext; auto; [|apply meqn_refl]. apply fmA_same; [intros a b La Lb; unfold mT; now apply AB|now apply OA|now apply OB]. }
    destruct (run_sector_mat _ _ _ _ _ _ _ _ _ _ ES NI E1) as [Z1|(M1 & EM1 & R1)].
    { (* the output of the first step is computed from zeros *)
      assert (Z2 : dgetd d2 (nth j keys "") 0 = 0).
      { destruct (run_sector_mat _ _ _ _ _ _ _ _ _ _ ES NI E2) as [Z|(M & _ & R)]; [apply Z; now rewrite D2|].
        rewrite D2 in R. rewrite R by exact L. apply mvec_zero. intros i Li. apply Z1. now apply nth_In. }
      rewrite Z2. symmetry. apply mvec_zero. intros i Li. apply Z1. now apply nth_In. }
    change (dkeys d1) with keys in EM1, R1. change (List.length keys) with m in R1.
    destruct (sector_matrix_form _ _ _ _ _ _ _ _ _ EM1) as (U1 & X1 & EU1 & EX1 & F1).
  apply ue0 in EX1. subst X1.
    unfold us_of in EU1. cbn [Z.eqb Pos.eqb] in EU1. rewrite (getUs_form _ _ _ _ _ _ EA) in EU1. injection EU1 as <-.
    (* the intermediate coefficients *)
    assert (MID : forall x, (x < m)%nat -> forall y, (y < m)%nat -> exists sa sb sc, scale_C (nth x keys "") pa = Ok sa /\ scale_C (nth y keys "") pb = Ok sb /\
                  scale_C (nth y keys "") pc = Ok sc /\ sb <> 0%R /\ sc <> 0%R /\
                  M1 y x = fmA m (mT A) (pw f eta1) y x * rc sa / rc sb /\
                  M3 y x = fmA m (mT A) (pw f (eta1 * eta2)) y x * rc sa / rc sc).
    { intros x Lx y Ly. destruct (F1 x Lx) as (sa & Sa & G1). destruct (G1 y Ly) as (sb & Sb & NB & ->).
      destruct (F3 x Lx) as (sa' & Sa' & G3). destruct (G3 y Ly) as (sc & Sc & NC & ->). rewrite Sa in Sa'. injection Sa' as <-.
      exists sa, sb, sc. repeat split; auto; cbv beta; field; now apply rc_nz. }
    destruct (run_sector_mat _ _ _ _ _ _ _ _ _ _ ES NI E2) as [Z2|(M2 & EM2 & R2)].
    + rewrite D2 in Z2. change (dkeys d1) with keys in Z2.
      (* everything vanishes after the first step: then it vanishes directly as well *)
      rewrite (proj2 (Z2 _ (nth_In keys "" L))). symmetry.
      assert (V : forall y, (y < m)%nat -> ksum (map (fun x => M1 y x * cin C keys x) (seq 0 m)) = 0).
      { intros y Ly. rewrite <- (proj1 (Z2 (nth y keys "") (nth_In keys "" Ly))). symmetry. now apply R1. }
      destruct (MID j L j L) as (_ & _ & sc & _ & _ & Sc & _ & NC & _).
      transitivity (ksum (map (fun y => fmA m (mT B) (pw f eta2) j y * (match scale_C (nth y keys "") pb with Ok t => rc t | Err _ => 0 end) / rc sc *
                     ksum (map (fun x => M1 y x * cin C keys x) (seq 0 m))) (seq 0 m))).
      * unfold mvec. rewrite (ksum_ext _ (fun x => ksum (map (fun y => fmA m (mT B) (pw f eta2) j y * (match scale_C (nth y keys "") pb with Ok t => rc t | Err _ => 0 end) / rc sc * (M1 y x * cin C keys x)) (seq 0 m)))).
        -- rewrite ksum_swap. apply ksum_ext. intros y _. now rewrite <- ksum_scale.
        -- intros x Ix. apply in_seq in Ix. destruct (MID x ltac:(lia) j L) as (sa & sb' & sc' & Sa & _ & Sc' & _ & _ & _ & ->).
           rewrite Sc in Sc'. injection Sc' as <-. rewrite MU by lia.
           rewrite !kdiv_def, <- !ksum_scale_r. apply ksum_ext. intros y Iy. apply in_seq in Iy.
           destruct (MID x ltac:(lia) y ltac:(lia)) as (sa' & sb & _ & Sa' & -> & _ & NB & _ & -> & _).
           rewrite Sa in Sa'. injection Sa' as <-. field. split; now apply rc_nz.
      * apply ksum_zero. intros y Iy. apply in_seq in Iy. rewrite V by lia. ring.
    + rewrite D2 in EM2, R2. change (dkeys d1) with keys in EM2, R2. change (List.length keys) with m in R2. rewrite R2 by exact L.
      destruct (sector_matrix_form _ _ _ _ _ _ _ _ _ EM2) as (U2 & X2 & EU2 & EX2 & F2).
  apply ue0 in EX2. subst X2.
      unfold us_of in EU2. cbn [Z.eqb Pos.eqb] in EU2. rewrite (getUs_form _ _ _ _ _ _ EB) in EU2. injection EU2 as <-.
      transitivity (ksum (map (fun y => ksum (map (fun x => M2 j y * (M1 y x * cin C keys x)) (seq 0 m))) (seq 0 m))).
      * unfold mvec. apply ksum_ext. intros y Iy. apply in_seq in Iy. rewrite ksum_scale. f_equal. apply R1. lia.
      * rewrite ksum_swap. unfold mvec. apply ksum_ext. intros x Ix. apply in_seq in Ix.
        destruct (MID x ltac:(lia) j L) as (sa & sb' & sc & Sa & _ & Sc & _ & NC & _ & ->). rewrite MU by lia.
        rewrite !kdiv_def, <- !ksum_scale_r. apply ksum_ext. intros y Iy. apply in_seq in Iy.
        destruct (MID x ltac:(lia) y ltac:(lia)) as (sa' & sb & _ & Sa' & Sb & _ & NB & _ & -> & _).
        rewrite Sa in Sa'. injection Sa' as <-.
        destruct (F2 y ltac:(lia)) as (tb & Tb & G2). destruct (G2 j L) as (tc & Tc & NC' & ->).
        rewrite Sb in Tb. injection Tb as <-. rewrite Sc in Tc. injection Tc as <-. cbv beta. field. split; now apply rc_nz.
Qed.
End Evol.
