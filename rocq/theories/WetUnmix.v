(* Coefficients that do not mix, and running with qcd_order = 0 *)
From Coq Require Import List Bool ZArith QArith Reals Qreals Arith Lia Lra String Ascii.
From Verif Require Import PyBase Num SymModel EftModel NpModel NpProofs RealC WcxfModel WcxfProofs AdmData WetModel WetSpec WetMat WetPow WetProofs WetSector WetEvol WetRge WetRun WetLaws.
Import ListNotations.
Local Open Scope string_scope.
Local Open Scope list_scope.
Local Open Scope K_scope.
Add Field KFX : (k_field CR).

(* ---------- entries of the evaluated matrices ---------- *)
Lemma arow_get p f r row j : arow_eval p f r = Ok row ->
  match dget r j with
  | Some e => exists z, aeval p f e = Ok z /\ dget row j = Some z
  | None => dget row j = None
  end.
Proof.
  unfold arow_eval. revert row. induction r as [|[i e] r IH]; intros row; cbn [res_map dget].
  - intros E. injection E as <-. reflexivity.
  - cbn [fst snd]. destruct (aeval p f e) as [z|] eqn:Ez; [|discriminate]. cbn [rmap bind].
    destruct (res_map _ r) as [row'|]; [|discriminate]. cbn [bind]. intros E. injection E as <-. cbn [dget].
    destruct (keqb j i); [exists z; auto|]. apply (IH _ eq_refl).
Qed.
Lemma amat_get p f m n M i j : amat_eval p f m = Ok (n, M) ->
  match dget (nth i m []) j with
  | Some e => exists z, aeval p f e = Ok z /\ M i j = z
  | None => M i j = 0
  end.
Proof.
  unfold amat_eval. destruct (res_map (arow_eval p f) m) as [rows|] eqn:ER; [|discriminate]. cbn [rmap]. intros E. injection E as _ <-.
  destruct (le_lt_dec (List.length m) i) as [L|L].
  - rewrite (nth_overflow m) by exact L. cbn [dget].
    assert (Z : dgetd (nth i rows []) j 0 = 0) by (rewrite nth_overflow; [reflexivity|rewrite (res_map_length _ _ _ ER); exact L]). exact Z.
  - pose proof (res_map_nth _ _ _ i (nth i m []) [] ER (nth_error_nth' m [] L)) as Q.
    pose proof (arow_get p f _ _ j Q) as G. destruct (dget (nth i m []) j) as [e|].
    + destruct G as (z & Ez & Dz). exists z. split; auto. now apply (f_equal (fun o => match o with Some v => v | None => 0 end)) in Dz.
    + now apply (f_equal (fun o => match o with Some v => v | None => 0 end)) in G.
Qed.
(* the expressions that are linear in b0 = 11 - 2 f / 3 with rational coefficients: x + y b0 *)
Fixpoint leval (e : aexp) : option (Q * Q) :=
  match e with
  | N n => Some (inject_Z n, 0%Q)
  | Dec n d => Some (n # d, 0%Q)
  | B0 => Some (0%Q, 1%Q)
  | Neg a => option_map (fun x => (- fst x, - snd x)%Q) (leval a)
  | Add a b => match leval a, leval b with Some x, Some y => Some (fst x + fst y, snd x + snd y)%Q | _, _ => None end
  | Mul a b => match leval a, leval b with
               | Some x, Some y => if Qeq_bool (snd x) 0 then Some (fst x * fst y, fst x * snd y)%Q else None
               | _, _ => None
               end
  | Div a b => match leval a, leval b with
               | Some x, Some y => if Qeq_bool (snd y) 0 then if Qeq_bool (fst y) 0 then None else Some (fst x / fst y, snd x / fst y)%Q else None
               | _, _ => None
               end
  | _ => None
  end.
Definition lval (f : Z) (x : Q * Q) : R := (Q2R (fst x) + Q2R (snd x) * b0s f)%R.
Lemma Q2R_0 : Q2R 0 = 0%R. Proof. unfold Q2R. cbn. lra. Qed.
Lemma Q2R_1 : Q2R 1 = 1%R. Proof. unfold Q2R. cbn. lra. Qed.
Lemma leval_eval p f e x : leval e = Some x -> aeval p f e = Ok (rc (lval f x)).
Proof.
  unfold lval. revert x. induction e; cbn [leval aeval]; intros q E; try discriminate.
  - injection E as <-. do 2 f_equal. cbn [fst snd]. rewrite Q2R_0. unfold Q2R, inject_Z. cbn [Qnum Qden]. field.
  - injection E as <-. cbn [fst snd]. rewrite Q2R_0. do 2 f_equal. unfold Q2R, Rdiv. cbn [Qnum Qden]. ring.
  - injection E as <-. cbn [fst snd]. rewrite Q2R_0, Q2R_1. do 2 f_equal. unfold b0g, b0s. field.
  - destruct (leval e) as [x|]; [|discriminate]. injection E as <-. rewrite (IHe _ eq_refl). cbn [rmap fst snd]. rewrite !Q2R_opp, <- rc_opp. do 2 f_equal. ring.
  - destruct (leval e1) as [x|]; [|discriminate]. destruct (leval e2) as [y|]; [|discriminate]. injection E as <-.
    rewrite (IHe1 _ eq_refl), (IHe2 _ eq_refl). cbn [bind rmap fst snd]. rewrite !Q2R_plus, <- rc_add. do 2 f_equal. ring.
  - destruct (leval e1) as [x|]; [|discriminate]. destruct (leval e2) as [y|]; [|discriminate]. destruct (Qeq_bool (snd x) 0) eqn:Z; [|discriminate]. injection E as <-.
    apply Qeq_bool_iff, Qeq_eqR in Z. rewrite Q2R_0 in Z.
    rewrite (IHe1 _ eq_refl), (IHe2 _ eq_refl). cbn [bind rmap fst snd]. rewrite !Q2R_mult, <- rc_mul. do 2 f_equal. rewrite Z. ring.
  - destruct (leval e1) as [x|]; [|discriminate]. destruct (leval e2) as [y|]; [|discriminate]. destruct (Qeq_bool (snd y) 0) eqn:Z; [|discriminate].
    destruct (Qeq_bool (fst y) 0) eqn:Y; [discriminate|]. injection E as <-. apply Qeq_bool_iff, Qeq_eqR in Z. rewrite Q2R_0 in Z.
    rewrite (IHe1 _ eq_refl), (IHe2 _ eq_refl). cbn [bind fst snd]. rewrite Z.
    assert (NQ : ~ (fst y == 0)%Q) by (intros W; apply Qeq_bool_iff in W; congruence).
    assert (NY : Q2R (fst y) <> 0%R). { intros W. apply NQ. apply eqR_Qeq. now rewrite W, Q2R_0. }
    replace (Q2R (fst y) + 0 * b0s f)%R with (Q2R (fst y)) by ring.
    destruct (ceqb_spec (rc (Q2R (fst y))) 0) as [W|_]; [now apply rc_nz in W|]. rewrite !Q2R_div, <- rc_div by assumption. do 2 f_equal. field. exact NY.
Qed.

(* ---------- columns without mixing ---------- *)
(* the expression e on the diagonal of column j, nothing else *)
Definition clean_col (m : amat) (j : nat) (e : option aexp) : bool :=
  forallb (fun ir => if (fst ir =? j)%nat then true else negb (dmem (snd ir) j)) (combine (seq 0 (List.length m)) m).
Lemma nth_combine_seq (m : amat) i d : (i < List.length m)%nat -> In (i, nth i m d) (combine (seq 0 (List.length m)) m).
Proof.
  intros L. assert (G : forall s (m : amat) i, (i < List.length m)%nat -> In ((s + i)%nat, nth i m d) (combine (seq s (List.length m)) m)).
  { clear. intros s m. revert s. induction m as [|r m IH]; intros s i L; [cbn in L; lia|]. cbn [List.length seq combine]. destruct i.
    - left. now rewrite Nat.add_0_r.
    - right. cbn [nth]. replace (s + S i)%nat with (S s + i)%nat by lia. apply IH. cbn in L. lia. }
  apply (G 0%nat m i L).
Qed.
(* what the reduction to the permissible coefficients keeps *)
Lemma reduced_col bases s cls f p keys all m n A j d :
  sector_keys bases s f = Ok keys -> dget sectors s = Some cls -> dget coeffs s = Some all ->
  dget adm_table ("adm_s_" ++ cls)%string = Some m -> adm_reduced bases "adm_s_" cls f p = Ok (n, A) -> (j < List.length keys)%nat ->
  List.length m = List.length all ->
  exists J, (J < List.length all)%nat /\ nth J all d = nth j keys d /\
  (clean_col m J None = true -> forall a, (a < n)%nat -> A a j = if (j =? a)%nat then match dget (nth J m []) J with Some e => match aeval p f e with Ok z => z | Err _ => 0 end | None => 0 end else 0).
Proof.
  intros EK ES EA Em ER L LM. destruct (sector_facts s all EA) as (cls' & ES' & _ & F2). assert (cls' = cls) by congruence. subst cls'.
  unfold sector_keys in EK. rewrite EA, <- F2 in EK. unfold adm_reduced in ER. rewrite Em in ER.
  destruct (amat_eval p f m) as [[n0 M]|] eqn:EM; [|discriminate]. cbn [bind] in ER.
  destruct (get_permissible_wcs bases cls f) as [perm|] eqn:EP; [|discriminate]. cbn [rmap bind] in *. injection EK as EK. injection ER as ER.
  assert (N0 : n0 = List.length m).
  { unfold amat_eval in EM. destruct (res_map (arow_eval p f) m) as [rows|] eqn:RM; [|discriminate]. cbn [rmap] in EM. injection EM as <- _. now apply res_map_length in RM. }
  assert (CC : forall J, clean_col m J None = true -> forall a, (a < List.length m)%nat -> a <> J -> M a J = 0).
  { intros J CL a La N. unfold clean_col in CL. rewrite forallb_forall in CL. specialize (CL _ (nth_combine_seq m a [] La)). cbn [fst snd] in CL.
    destruct (Nat.eqb_spec a J); [contradiction|]. apply negb_true_iff in CL. pose proof (amat_get p f m n0 M a J EM) as G. rewrite dmem_dget in CL.
    destruct (dget (nth a m []) J); [discriminate|exact G]. }
  assert (DD : forall J, M J J = match dget (nth J m []) J with Some e => match aeval p f e with Ok z => z | Err _ => 0 end | None => 0 end).
  { intros J. pose proof (amat_get p f m n0 M J J EM) as G. destruct (dget (nth J m []) J) as [e|]; [|exact G]. destruct G as (z & -> & ->). reflexivity. }
  destruct perm as [l|].
  - cbn [reduce] in ER. injection ER as <- <-. subst keys. rewrite map_length in L.
    assert (W : NoDup l /\ forall i, In i l -> (i < List.length all)%nat).
    { destruct (perm_form bases cls f l EP) as (P & k & -> & Q). split; [apply NoDup_filter, seq_NoDup|]. intros i I. apply filter_In in I as [I _].
      apply in_seq in I. specialize (Q all). destruct (String.eqb_spec cls "dF0") as [->|NF].
      - pose proof sectors_ok as SO. rewrite forallb_forall in SO. specialize (SO _ (dget_In _ _ _ EA)). unfold sector_ok in SO. cbn [fst snd] in SO. rewrite ES in SO.
        apply andb_true_iff in SO as [_ SO]. destruct (String.eqb_spec s "dF=0") as [->|]; [rewrite (Q EA) in I; lia|].
        destruct (kmem s special_classes) eqn:K; [|discriminate SO]. apply String.eqb_eq in SO. subst s. discriminate EA.
      - pose proof sectors_ok as SO. rewrite forallb_forall in SO. specialize (SO _ (dget_In _ _ _ EA)). unfold sector_ok in SO. cbn [fst snd] in SO. rewrite ES in SO.
        apply andb_true_iff in SO as [_ SO]. destruct (String.eqb_spec s "dF=0") as [->|]; [apply String.eqb_eq in SO; contradiction|].
        destruct (kmem s special_classes) eqn:K; [apply String.eqb_eq in SO; subst s; rewrite (Q EA) in I; lia|].
        unfold get_permissible_wcs in EP. apply negb_true_iff in SO. rewrite SO in EP. discriminate EP. }
    destruct W as [W B]. exists (nth j l 0%nat). split; [apply B; now apply nth_In|]. split.
    + rewrite (nth_indep (map (fun i => nth i all "") l) d (nth 0 all "")) by (rewrite map_length; exact L). rewrite (map_nth (fun i => nth i all "")).
      apply nth_indep. apply B. now apply nth_In.
    + intros CL a La. destruct (Nat.eqb_spec j a) as [<-|N]; [apply DD|]. cbn [snd]. apply CC; auto.
      * rewrite LM. apply B. now apply nth_In.
      * intros E. apply N. symmetry. eapply NoDup_nth; eauto.
  - cbn [reduce] in ER. injection ER as <- <-. subst keys. exists j. repeat split; auto.
    intros CL a La. destruct (Nat.eqb_spec j a) as [<-|N]; [apply DD|]. apply CC; auto. congruence.
Qed.

(* ---------- the anomalous dimensions of the coefficients that do not mix ---------- *)
(* a coefficient is scaled by a power of the couplings and a mass *)
Definition unscaled (k : string) : bool := negb (kmem (name_of k) (qG ++ qgamma ++ lgamma)) && negb (kmem k G3).
Lemma unscaled_C k p s : unscaled k = true -> scale_C k p = Ok s -> s = 1%R.
Proof.
  unfold unscaled, scale_C. intros U. apply andb_true_iff in U as [U1 U2]. apply negb_true_iff in U1, U2.
  assert (X : kmem (name_of k) qG = false /\ kmem (name_of k) (qgamma ++ lgamma) = false).
  { split; apply kmem_nIn; apply kmem_nIn in U1; intros I; apply U1; rewrite in_app_iff; auto. }
  destruct X as [-> ->]. rewrite U2. destruct (fsqrt _); [|discriminate]. cbn [bind]. destruct (fsqrt _); [|discriminate]. cbn [bind]. congruence.
Qed.
Lemma cpow_rc x a : cpow x (rc a) = rc (Rpower x a).
Proof. unfold cpow, Rpower, rc. cbn. rewrite !Rmult_0_l, cos_0, sin_0. f_equal; ring. Qed.
(* the table check: every coefficient selected by gam has a clean column with this entry *)
Definition qeq2 (x y : Q * Q) : bool := Qeq_bool (fst x) (fst y) && Qeq_bool (snd x) (snd y).
Definition gamma_ok (gam : string -> option (Q * Q)) (sl : string * list string) : bool :=
  match dget sectors (fst sl) with
  | None => false
  | Some cls =>
      if String.eqb cls "inv" then true else
      match dget adm_table ("adm_s_" ++ cls)%string with
      | None => false
      | Some m => (List.length m =? List.length (snd sl))%nat &&
          forallb (fun Jk => match gam (snd Jk) with
                    | None => true
                    | Some q => clean_col m (fst Jk) None &&
                                match dget (nth (fst Jk) m []) (fst Jk) with
                                | None => qeq2 (0%Q, 0%Q) q
                                | Some e => match leval e with Some x => qeq2 x q | None => false end
                                end
                    end) (combine (seq 0 (List.length (snd sl))) (snd sl))
      end
  end.
Lemma in_combine_seq {A} (d : A) l i : (i < List.length l)%nat -> In (i, nth i l d) (combine (seq 0 (List.length l)) l).
Proof.
  intros L. assert (G : forall s (l : list A) i, (i < List.length l)%nat -> In ((s + i)%nat, nth i l d) (combine (seq s (List.length l)) l)).
  { clear. intros s m. revert s. induction m as [|r m IH]; intros s i L; [cbn in L; lia|]. cbn [List.length seq combine]. destruct i.
    - left. now rewrite Nat.add_0_r.
    - right. cbn [nth]. replace (s + S i)%nat with (S s + i)%nat by lia. apply IH. cbn in L. lia. }
  apply (G 0%nat l i L).
Qed.
Section Unmix.
Variable la : linalg.
Variable bases : @basis_reg CR.
Lemma gamma_run gam s C eta f pi po d cls k q :
  forallb (gamma_ok gam) coeffs = true ->
  dget sectors s = Some cls -> cls <> "inv" -> adm_ok la bases cls f pi ->
  run_sector la bases s C eta f pi po 0 1 = Ok d -> In k (dkeys d) -> gam k = Some q ->
  dgetd C k 0 = 0 /\ dgetd d k 0 = 0 \/
  exists si so, scale_C k pi = Ok si /\ scale_C k po = Ok so /\ so <> 0%R /\
  dgetd d k 0 = rc (Rpower eta (lval f q / (2 * b0s f)) * si / so) * dgetd C k 0.
Proof.
  intros TAB ES NI O E IK EG. destruct (run_sector_keys _ _ _ _ _ _ _ _ _ _ _ E) as [EK _].
  destruct (keys_index _ _ IK) as (j & Lj & ->). destruct (sector_keys_spec _ _ _ _ EK) as [ND (all & EA & IN)].
  rewrite forallb_forall in TAB. specialize (TAB _ (dget_In _ _ _ EA)). unfold gamma_ok in TAB. cbn [fst snd] in TAB. rewrite ES in TAB.
  destruct (String.eqb_spec cls "inv"); [contradiction|]. destruct (dget adm_table ("adm_s_" ++ cls)%string) as [m|] eqn:Em; [|discriminate].
  apply andb_true_iff in TAB as [LM TAB]. apply Nat.eqb_eq in LM.
  destruct (run_sector_mat _ _ _ _ _ _ _ _ _ _ _ _ ES NI E) as [Z|(M & EM & _)].
  { left. exact (Z _ IK). }
  destruct (sector_matrix_form _ _ _ _ _ _ _ _ _ _ _ EM) as (Us & Ue & EU & _ & _).
  unfold us_of in EU. cbn [Z.eqb Pos.eqb] in EU. apply getUs_inv in EU as (A & ER & _).
  destruct (reduced_col bases s cls f pi (dkeys d) all m _ A j "" EK ES EA Em ER Lj LM) as (J & LJ & NJ & COL).
  rewrite forallb_forall in TAB. specialize (TAB _ (in_combine_seq "" all J LJ)). cbn [fst snd] in TAB. rewrite NJ, EG in TAB.
  apply andb_true_iff in TAB as [TC TQ].
  assert (L2 : forall x, qeq2 x q = true -> lval f x = lval f q).
  { intros x X. apply andb_true_iff in X as [X1 X2]. apply Qeq_bool_iff, Qeq_eqR in X1, X2. unfold lval. congruence. }
  assert (QV : match dget (nth J m []) J with Some e => match aeval pi f e with Ok z => z | Err _ => 0 end | None => 0 end = rc (lval f q)).
  { destruct (dget (nth J m []) J) as [e|].
    - destruct (leval e) as [x|] eqn:QX; [|discriminate]. rewrite (leval_eval pi f e x QX). now rewrite (L2 _ TQ).
    - rewrite <- (L2 _ TQ). unfold lval. cbn [fst snd]. rewrite Q2R_0. replace (0 + 0 * b0s f)%R with 0%R by ring. reflexivity. }
  rewrite QV in COL.
  destruct (unmixed la bases s C eta f pi po d cls _ A j (rc (lval f q)) ES NI O ER Lj (COL TC) E) as [Z|(si & so & S1 & S2 & NZ & ->)]; [left; exact Z|].
  right. exists si, so. repeat split; auto. unfold pw. rewrite <- rc_div by (pose proof (b0s_nz f); lra).
  rewrite cpow_rc, rc_div, rc_mul by exact NZ. reflexivity.
Qed.
(* without scaling *)
Lemma gamma_run_plain gam s C eta f pi po d cls k q :
  forallb (gamma_ok gam) coeffs = true ->
  dget sectors s = Some cls -> cls <> "inv" -> adm_ok la bases cls f pi ->
  run_sector la bases s C eta f pi po 0 1 = Ok d -> In k (dkeys d) -> gam k = Some q -> unscaled k = true ->
  dgetd d k 0 = rc (Rpower eta (lval f q / (2 * b0s f))) * dgetd C k 0.
Proof.
  intros TAB ES NI O E IK EG U. destruct (gamma_run _ _ _ _ _ _ _ _ _ _ _ TAB ES NI O E IK EG) as [[-> ->]|(si & so & S1 & S2 & NZ & ->)]; [ring|].
  apply (unscaled_C _ _ _ U) in S1, S2. subst si so. f_equal. f_equal. field.
Qed.
(* the three gluon operators *)
Lemma scale_g k p : In k G3 -> p_ok p -> scale_C k p = Ok (sqrt (4 * PI * alpha_s p)).
Proof.
  intros K (P1 & P2 & _). unfold scale_C. pose proof PI_RGT_0. unfold fsqrt.
  destruct (Rlt_dec (4 * PI * alpha_s p) 0) as [L|_]; [exfalso; assert (0 < 4 * PI * alpha_s p)%R by (apply Rmult_lt_0_compat; lra); lra|]. cbn [bind].
  destruct (Rlt_dec (4 * PI * alpha_e p) 0) as [L|_]; [exfalso; assert (0 < 4 * PI * alpha_e p)%R by (apply Rmult_lt_0_compat; lra); lra|].
  destruct K as [<-|[<-|[]]]; reflexivity.
Qed.
Definition g3_gam (k : string) : option (Q * Q) := if kmem k G3 then Some (36%Q, (-3)%Q) else None.
Lemma g3_tab : forallb (gamma_ok g3_gam) coeffs = true.
Proof. vm_cast_no_check (eq_refl true). Qed.
Lemma g3_run s C f pi po d cls k :
  dget sectors s = Some cls -> cls <> "inv" -> adm_ok la bases cls f pi -> p_ok pi -> p_ok po ->
  run_sector la bases s C (alpha_s pi / alpha_s po) f pi po 0 1 = Ok d -> In k (dkeys d) -> In k G3 ->
  dgetd d k 0 = rc (Rpower (alpha_s pi / alpha_s po) ((36 - 2 * b0s f) / (2 * b0s f))) * dgetd C k 0.
Proof.
  intros ES NI O PI' PO E IK IG. assert (EG : g3_gam k = Some (36%Q, (-3)%Q)) by (unfold g3_gam; apply kmem_In in IG; now rewrite IG).
  destruct (gamma_run _ _ _ _ _ _ _ _ _ _ _ g3_tab ES NI O E IK EG) as [[-> ->]|(si & so & S1 & S2 & NZ & ->)]; [ring|].
  rewrite (scale_g _ _ IG PI') in S1. rewrite (scale_g _ _ IG PO) in S2. injection S1 as <-. injection S2 as <-. f_equal. f_equal.
  pose proof PI_RGT_0. destruct PI' as [P1 _]. destruct PO as [P2 _]. pose proof (b0s_nz f) as NB.
  assert (Q0 : (0 < alpha_s pi / alpha_s po)%R) by now apply Rdiv_lt_0_compat.
  unfold Rdiv at 1. rewrite Rmult_assoc. fold (sqrt (4 * PI * alpha_s pi) / sqrt (4 * PI * alpha_s po))%R.
  rewrite <- sqrt_div_alt by (apply Rmult_lt_0_compat; lra).
  replace (4 * PI * alpha_s pi / (4 * PI * alpha_s po))%R with (alpha_s pi / alpha_s po)%R by (field; lra).
  rewrite <- Rpower_sqrt by exact Q0. rewrite <- Rpower_plus. f_equal. unfold lval. cbn [fst snd]. unfold Q2R. cbn [Qnum Qden]. field. lra.
Qed.
End Unmix.
