(* Proofs about the running of one sector in WET: totality, neutrality, composition *)
From Coq Require Import List Bool ZArith Reals Arith Lia Lra String Ascii.
From Verif Require Import PyBase Num SymModel EftModel NpModel NpProofs RealC WcxfModel WcxfProofs AdmData WetModel WetSpec WetMat WetPow WetProofs.
Import ListNotations.
Local Open Scope string_scope.
Local Open Scope list_scope.
Local Open Scope K_scope.
Add Field KFT : (k_field CR).

(* ---------- the expressions in adm.py ---------- *)
Fixpoint mono (e : aexp) : bool :=
  match e with
  | N n => negb (n =? 0)%Z
  | V _ => true
  | Mul a b => mono a && mono b
  | _ => false
  end.
Fixpoint den_ok (e : aexp) : bool :=
  match e with
  | Neg a => den_ok a
  | Add a b | Mul a b => den_ok a && den_ok b
  | Div a b => den_ok a && mono b
  | _ => true
  end.
Lemma rc_0 : rc 0%R = 0. Proof. reflexivity. Qed.
Lemma rc_nz r : r <> 0%R -> rc r <> 0.
Proof. intros N E. apply N. now apply rc_inj. Qed.
Lemma mono_ok p f e : (forall v, mval p v <> 0%R) -> mono e = true -> exists r, aeval p f e = Ok (rc r) /\ r <> 0%R.
Proof.
  intros P. induction e; cbn [mono aeval]; try discriminate.
  - intros E. apply negb_true_iff in E. apply Z.eqb_neq in E. exists (IZR n). split; auto. now apply not_0_IZR.
  - intros _. exists (mval p v). auto.
  - intros E. apply andb_true_iff in E as [E1 E2]. destruct (IHe1 E1) as (x & -> & X), (IHe2 E2) as (y & -> & Y).
    exists (x * y)%R. cbn [bind rmap]. rewrite rc_mul. split; auto.
Qed.
Lemma aeval_ok p f e : (forall v, mval p v <> 0%R) -> den_ok e = true -> exists z, aeval p f e = Ok z.
Proof.
  intros P. induction e; cbn [den_ok aeval]; intros E; try (eexists; reflexivity).
  - destruct (IHe E) as [z ->]. eexists. reflexivity.
  - apply andb_true_iff in E as [E1 E2]. destruct (IHe1 E1) as (x & ->), (IHe2 E2) as (y & ->). eexists. reflexivity.
  - apply andb_true_iff in E as [E1 E2]. destruct (IHe1 E1) as (x & ->), (IHe2 E2) as (y & ->). eexists. reflexivity.
  - apply andb_true_iff in E as [E1 E2]. destruct (IHe1 E1) as (x & ->), (mono_ok p f e2 P E2) as (y & -> & Y). cbn [bind].
    destruct (ceqb_spec (rc y) 0) as [Z|_]; [now apply rc_nz in Z|]. eexists. reflexivity.
Qed.
Lemma res_map_ok {A B} (g : A -> res B) l : (forall x, In x l -> exists y, g x = Ok y) -> exists m, res_map g l = Ok m.
Proof.
  induction l as [|x l IH]; intros H; [eexists; reflexivity|]. cbn. destruct (H x) as [y ->]; [now left|].
  destruct IH as [m ->]; [intros; apply H; now right|]. eexists. reflexivity.
Qed.
Lemma amat_eval_ok p f m : (forall v, mval p v <> 0%R) -> forallb (forallb (fun je => den_ok (snd je))) m = true ->
  exists M, amat_eval p f m = Ok (List.length m, M).
Proof.
  intros P E. unfold amat_eval. destruct (res_map_ok (arow_eval p f) m) as [rows ER].
  - intros r I. rewrite forallb_forall in E. specialize (E r I). rewrite forallb_forall in E. apply res_map_ok.
    intros je J. destruct (aeval_ok p f (snd je) P (E je J)) as [z ->]. eexists. reflexivity.
  - rewrite ER. cbn [rmap]. pose proof (res_map_length _ _ _ ER) as L. eexists. apply f_equal. apply f_equal2; [exact L|reflexivity].
Qed.

(* ---------- facts about the tables ---------- *)
Definition mat_ok (name : string) (n : nat) : bool :=
  match dget adm_table name with
  | None => false
  | Some m => (List.length m =? n)%nat && forallb (forallb (fun je => den_ok (snd je))) m
  end.
Definition sector_ok (sl : string * list string) : bool :=
  match dget sectors (fst sl) with
  | None => false
  | Some cls =>
      (String.eqb cls "inv" ||
       (mat_ok ("adm_s_" ++ cls) (List.length (snd sl)) && mat_ok ("adm_e_" ++ cls) (List.length (snd sl))))
      && (if String.eqb (fst sl) "dF=0" then String.eqb cls "dF0"
          else if kmem (fst sl) special_classes then String.eqb (fst sl) cls else negb (kmem cls special_classes))
  end.
Lemma sectors_ok : forallb sector_ok coeffs = true.
Proof. vm_cast_no_check (eq_refl true). Qed.
Lemma sector_facts s all : dget coeffs s = Some all -> exists cls, dget sectors s = Some cls /\
  (cls <> "inv" -> mat_ok ("adm_s_" ++ cls) (List.length all) = true /\ mat_ok ("adm_e_" ++ cls) (List.length all) = true) /\
  forall bases f, get_permissible_wcs bases cls f = (if String.eqb s "dF=0" then get_permissible_wcs bases "dF0" f else get_permissible_wcs bases s f).
Proof.
  intros E. apply dget_In in E. pose proof sectors_ok as S. rewrite forallb_forall in S. specialize (S _ E). unfold sector_ok in S. cbn [fst snd] in S.
  destruct (dget sectors s) as [cls|]; [|discriminate]. exists cls. split; auto. apply andb_true_iff in S as [S1 S2]. split.
  - intros N. apply orb_true_iff in S1 as [S1|S1]; [apply String.eqb_eq in S1; contradiction|]. now apply andb_true_iff in S1.
  - intros bases f. destruct (String.eqb s "dF=0"); [now apply String.eqb_eq in S2 as ->|].
    destruct (kmem s special_classes) eqn:K; [now apply String.eqb_eq in S2 as ->|]. apply negb_true_iff in S2.
    unfold get_permissible_wcs. now rewrite K, S2.
Qed.
Definition key_ok (k : string) : bool :=
  negb (kmem (name_of k) (qG ++ qgamma ++ lgamma)) ||
  match get_m k with
  | Ok (Some m) => kmem m ["m_u"; "m_d"; "m_s"; "m_c"; "m_b"; "m_e"; "m_mu"; "m_tau"]
  | _ => false
  end.
Lemma keys_ok : forallb key_ok all_keys = true.
Proof. vm_cast_no_check (eq_refl true). Qed.
Lemma In_all_keys s all k : dget coeffs s = Some all -> In k all -> In k all_keys.
Proof. intros E I. apply dget_In in E. apply in_flat_map. exists (s, all). auto. Qed.
Lemma p_get_pos p k : p_ok p -> kmem k ["m_u"; "m_d"; "m_s"; "m_c"; "m_b"; "m_e"; "m_mu"; "m_tau"] = true -> exists x, p_get p (Some k) = Ok x /\ (0 < x)%R.
Proof.
  intros (_ & _ & P) E. apply kmem_In in E. unfold p_get.
  destruct E as [<-|[<-|[<-|[<-|[<-|[<-|[<-|[<-|[]]]]]]]]]; (eexists; split; [reflexivity|]);
    [apply (P Mu)|apply (P Md)|apply (P Ms)|apply (P Mc)|apply (P Mb)|apply (P Me)|apply (P Mmu)|apply (P Mtau)].
Qed.
Lemma kmem_app (k : string) l m : kmem k (l ++ m) = kmem k l || kmem k m.
Proof. induction l as [|x l IH]; [reflexivity|]. change (keqb k x || kmem k (l ++ m) = (keqb k x || kmem k l) || kmem k m). rewrite IH. apply orb_assoc. Qed.
Lemma scale_ok k p : p_ok p -> In k all_keys -> exists t, scale_C k p = Ok t /\ (0 < t)%R.
Proof.
  intros P I. pose proof keys_ok as KO. rewrite forallb_forall in KO. specialize (KO k I). unfold key_ok in KO. destruct P as (A & B & C).
  assert (P : p_ok p) by (repeat split; assumption).
  assert (GA : (0 < 4 * PI * alpha_s p)%R) by (apply Rmult_lt_0_compat; [pose proof PI_RGT_0; lra|exact A]).
  assert (GE : (0 < 4 * PI * alpha_e p)%R) by (apply Rmult_lt_0_compat; [pose proof PI_RGT_0; lra|exact B]).
  pose proof (sqrt_lt_R0 _ GA) as G. pose proof (sqrt_lt_R0 _ GE) as E.
  unfold scale_C, fsqrt. destruct (Rlt_dec _ 0); [exfalso; lra|]. destruct (Rlt_dec _ 0); [exfalso; lra|]. cbn [bind].
  rewrite !kmem_app in KO. rewrite kmem_app. unfold fdiv.
  destruct (kmem (name_of k) qG) eqn:K1; [|destruct (kmem (name_of k) qgamma || kmem (name_of k) lgamma) eqn:K2].
  - cbn [orb negb] in KO. destruct (get_m k) as [[m|]|]; try discriminate. cbn [bind]. destruct (p_get_pos p m P KO) as (x & -> & X). cbn [bind].
    destruct (Req_EM_T x 0); [exfalso; lra|]. eexists. split; [reflexivity|]. now apply Rdiv_lt_0_compat.
  - cbn [orb negb] in KO. destruct (get_m k) as [[m|]|]; try discriminate. cbn [bind]. destruct (p_get_pos p m P KO) as (x & -> & X). cbn [bind].
    destruct (Req_EM_T (sqrt (4 * PI * alpha_e p)) 0); [exfalso; lra|]. cbn [bind]. destruct (Req_EM_T x 0); [exfalso; lra|].
    eexists. split; [reflexivity|]. apply Rdiv_lt_0_compat; auto. apply Rdiv_lt_0_compat; auto. now apply pow_lt.
  - destruct (kmem k G3); eexists; (split; [reflexivity|]); [exact G|lra].
Qed.
Lemma b0s_nz f : b0s f <> 0%R.
Proof.
  unfold b0s. intros E. assert (X : (IZR (2 * f) = IZR 33)%R) by (rewrite mult_IZR; lra). apply eq_IZR in X. lia.
Qed.

Section Sec.
Variable la : linalg.
Variable bases : @basis_reg CR.
Local Notation run_sector := (run_sector la bases).
Local Notation sector_matrix := (sector_matrix la bases).

Lemma adm_reduced_ok pre s f p keys cls :
  p_ok p -> sector_keys bases s f = Ok keys -> dget sectors s = Some cls -> cls <> "inv" -> pre = "adm_s_" \/ pre = "adm_e_" ->
  exists A, adm_reduced bases pre cls f p = Ok (List.length keys, A).
Proof.
  intros P EK ES NI PR. destruct (sector_keys_spec _ _ _ _ EK) as [_ (all & EA & _)].
  destruct (sector_facts s all EA) as (cls' & ES' & F1 & F2). assert (cls' = cls) by congruence. subst cls'.
  unfold sector_keys in EK. rewrite EA, <- F2 in EK.
  destruct (get_permissible_wcs bases cls f) as [perm|] eqn:EP; [|discriminate]. cbn [rmap] in EK. injection EK as <-.
  assert (Q : mat_ok (pre ++ cls) (List.length all) = true) by (destruct PR as [-> | ->]; [exact (proj1 (F1 NI))|exact (proj2 (F1 NI))]). clear F1.
  unfold mat_ok in Q. unfold adm_reduced. destruct (dget adm_table (pre ++ cls)%string) as [m|]; [|discriminate].
  apply andb_true_iff in Q as [Q1 Q2]. apply Nat.eqb_eq in Q1. destruct P as (_ & _ & P).
  destruct (amat_eval_ok p f m (fun v => Rgt_not_eq _ _ (P v)) Q2) as [M ->]. cbn [bind]. rewrite EP. cbn [bind].
  destruct perm as [l|]; cbn [reduce]; rewrite ?map_length, <- ?Q1; eexists; reflexivity.
Qed.
Definition ord_ok (o : Z) : Prop := o = 0%Z \/ o = 1%Z.
Lemma getUs_ok cls eta f p n A : adm_reduced bases "adm_s_" cls f p = Ok (n, A) -> exists U, getUs la bases cls eta f p = Ok (n, U).
Proof. intros E. unfold getUs, admeig. rewrite E. cbn [bind fst snd]. eexists. reflexivity. Qed.
Lemma getUe_ok cls eta f p n A B : p_ok p -> adm_reduced bases "adm_s_" cls f p = Ok (n, A) -> adm_reduced bases "adm_e_" cls f p = Ok (n, B) ->
  exists U, getUe la bases cls eta f p = Ok (n, U).
Proof.
  intros P E F. unfold getUe, admeig. rewrite E, F. cbn [bind fst snd]. rewrite Nat.eqb_refl. cbn [negb]. unfold fdiv.
  destruct (Req_EM_T _ 0) as [Z|]; [|eexists; reflexivity]. exfalso. destruct P as (P & _). pose proof (b0s_nz f).
  apply Rmult_integral in Z as [Z|Z]; [|lra]. apply Rmult_integral in Z as [Z|Z]; lra.
Qed.
Lemma sector_matrix_ok s f keys cls eta pi po qed qcd :
  p_ok pi -> p_ok po -> ord_ok qed -> ord_ok qcd -> sector_keys bases s f = Ok keys -> dget sectors s = Some cls -> cls <> "inv" ->
  exists M, sector_matrix cls keys eta f pi po qed qcd = Ok M.
Proof.
  intros PI' PO OE OS EK ES NI. destruct (sector_keys_spec _ _ _ _ EK) as [_ (all & EA & IN)].
  destruct (adm_reduced_ok "adm_s_" s f pi keys cls PI' EK ES NI (or_introl eq_refl)) as [A1 E1].
  destruct (adm_reduced_ok "adm_e_" s f pi keys cls PI' EK ES NI (or_intror eq_refl)) as [A2 E2].
  unfold WetProofs.sector_matrix.
  destruct (res_map_ok (fun k => scale_C k pi) keys) as [sc ->].
  { intros k I. destruct (scale_ok k pi PI') as (t & -> & _); [eapply In_all_keys; eauto|]. eauto. }
  destruct (res_map_ok (out_scale po) keys) as [t ->].
  { intros k I. unfold out_scale. destruct (scale_ok k po PO) as (t & -> & T); [eapply In_all_keys; eauto|]. cbn [bind].
    destruct (Req_EM_T t 0); [exfalso; lra|]. eauto. }
  cbn [bind rmap].
  assert (XS : exists U, us_of la bases cls eta f pi qcd (List.length keys) = Ok (List.length keys, U)).
  { unfold us_of. destruct OS as [-> | ->]; cbn [Z.eqb]; [eexists; reflexivity|]. exact (getUs_ok _ _ _ _ _ _ E1). }
  destruct XS as [Us ->]. cbn [bind].
  assert (XE : exists U, ue_of la bases cls eta f pi qed qcd (List.length keys) = Ok (List.length keys, U)).
  { unfold ue_of. destruct OE as [-> | ->]; cbn [Z.eqb]; [eexists; reflexivity|]. destruct (qcd =? 0)%Z; exact (getUe_ok _ _ _ _ _ _ _ PI' E1 E2). }
  destruct XE as [Ue ->]. cbn [bind fst snd]. rewrite Nat.eqb_refl. cbn [andb]. eexists. reflexivity.
Qed.
Theorem run_sector_total s C eta f pi po qed qcd keys :
  p_ok pi -> p_ok po -> ord_ok qed -> ord_ok qcd -> sector_keys bases s f = Ok keys ->
  exists d, run_sector s C eta f pi po qed qcd = Ok d /\ dkeys d = keys.
Proof.
  intros PI' PO OE OS EK. destruct (sector_keys_spec _ _ _ _ EK) as [_ (all & EA & IN)].
  destruct (sector_facts s all EA) as (cls & ES & _).
  assert (X : exists d, run_sector s C eta f pi po qed qcd = Ok d).
  { rewrite run_sector_eq, ES, EK. cbn [bind]. destruct (forallb _ _) eqn:Z; cbn [orb]; [eauto|].
    destruct (String.eqb_spec cls "inv") as [|NI]; cbn [orb]; [eauto|].
    destruct (sector_matrix_ok s f keys cls eta pi po qed qcd) as [M ->]; auto. cbn [bind]. eauto. }
  destruct X as [d E]. exists d. split; auto. now destruct (run_sector_get _ _ _ _ _ _ _ _ _ _ _ _ _ ES EK E) as [D _].
Qed.

(* ---------- functions of a matrix ---------- *)
Definition fm (n : nat) (w : nat -> CR) (v u : mat) (g : CR -> CR) : mat := mmul n (mmul n v (mdiag (fun k => g (w k)))) u.
Lemma fm_mul n w v u g h : meqn n (mmul n u v) meye -> meqn n (mmul n (fm n w v u g) (fm n w v u h)) (fm n w v u (fun x => g x * h x)).
Proof.
  intros UV i j Li Lj. unfold fm at 1 2.
  rewrite (mmul_assoc n (mmul n v (mdiag (fun k => g (w k)))) u _ i j Li Lj).
  assert (E : meqn n (mmul n u (mmul n (mmul n v (mdiag (fun k => h (w k)))) u)) (mmul n (mdiag (fun k => h (w k))) u)).
  { intros a b La Lb. rewrite <- (mmul_assoc n u _ u a b La Lb).
    apply (mmul_ext n (mmul n u (mmul n v (mdiag (fun k => h (w k))))) (mdiag (fun k => h (w k))) u u); auto; [|apply meqn_refl].
    intros c d Lc Ld. rewrite <- (mmul_assoc n u v _ c d Lc Ld).
    rewrite (mmul_ext n (mmul n u v) meye _ _ UV (meqn_refl n _) c d Lc Ld). now apply mmul_eye_l. }
  rewrite (mmul_ext n _ _ _ _ (meqn_refl n _) E i j Li Lj). unfold fm.
  unfold mmul at 1. rewrite (fmat_entry n v (fun k => g (w k) * h (w k)) u i j Li Lj).
  apply ksum_ext. intros k I. apply in_seq in I. rewrite mmul_diag_r, mmul_diag_l by lia. ring.
Qed.
Lemma fm_one n w v u g : meqn n (mmul n v u) meye -> (forall k, (k < n)%nat -> g (w k) = 1) -> meqn n (fm n w v u g) meye.
Proof.
  intros VU G i j Li Lj. unfold fm. rewrite <- (VU i j Li Lj), (fmat_entry n) by assumption. unfold mmul. apply ksum_ext. intros k I. apply in_seq in I. rewrite G by lia. ring.
Qed.
(* f(A) x = f(lambda) x for an eigenvector x *)
Lemma fm_eigvec n A w v u g x l : meqn n (mmul n A v) (fun i j => w j * v i j) -> meqn n (mmul n v u) meye -> meqn n (mmul n u v) meye ->
  (forall i, (i < n)%nat -> mvec n A x i = l * x i) -> forall i, (i < n)%nat -> mvec n (fm n w v u g) x i = g l * x i.
Proof.
  intros AV VU UV AX i Li.
  pose proof (left_eig n A w v u AV VU UV) as UA.
  assert (MV : forall M N y a, mvec n (mmul n M N) y a = mvec n M (mvec n N y) a).
  { intros M N y a. unfold mvec, mmul. rewrite (ksum_ext _ (fun k => ksum (map (fun j => M a j * N j k * y k) (seq 0 n)))).
    - rewrite ksum_swap. apply ksum_ext. intros k I. rewrite <- ksum_scale. apply ksum_ext. intros; ring.
    - intros k I. now rewrite <- ksum_scale_r. }
  set (y := mvec n u x).
  assert (Y : forall k, (k < n)%nat -> y k = 0 \/ w k = l).
  { intros k Lk. assert (E : w k * y k = l * y k).
    { unfold y. transitivity (mvec n (mmul n u A) x k).
      - unfold mvec. rewrite <- ksum_scale. apply ksum_ext. intros b I. apply in_seq in I. rewrite UA by lia. ring.
      - rewrite MV. unfold mvec at 1 3. rewrite <- ksum_scale. apply ksum_ext. intros b I. apply in_seq in I. rewrite AX by lia. ring. }
    assert (Z : (w k - l) * y k = 0) by (transitivity (w k * y k - l * y k); [ring|rewrite E; ring]).
    apply kmul_integral in Z as [Z|Z]; [right|now left]. transitivity (w k - l + l); [ring|rewrite Z; ring]. }
  unfold fm. rewrite MV. fold y. transitivity (mvec n v (fun k => g l * y k) i).
  - unfold mvec. apply ksum_ext. intros k I. apply in_seq in I. rewrite mmul_diag_r by lia.
    destruct (Y k) as [-> | ->]; [lia| |]; ring.
  - transitivity (g l * mvec n v y i).
    + unfold mvec. rewrite <- ksum_scale. apply ksum_ext. intros; ring.
    + f_equal. unfold y. rewrite <- MV. unfold mvec. rewrite (ksum_ext _ (fun k => if (i =? k)%nat then x k else 0)).
      * now apply sum_delta.
      * intros k I. apply in_seq in I. rewrite (VU i k) by lia. unfold meye. destruct (i =? k)%nat; ring.
Qed.
End Sec.
