(* A linear algebra package that fulfils its contract on the anomalous dimension matrices in which only
   some coefficients receive contributions from others; and a small EFT, used for the examples in WetProps.v *)
From Coq Require Import List Bool ZArith QArith Reals Qreals Arith Lia Lra String Ascii.
From Verif Require Import PyBase Num SymModel EftModel NpModel NpProofs RealC WcxfModel WcxfProofs AdmData WetModel WetSpec WetMat WetPow WetProofs WetSector WetEvol WetRge WetRun WetLaws WetUnmix WetThms.
Import ListNotations.
Local Open Scope string_scope.
Local Open Scope list_scope.
Local Open Scope K_scope.
Add Field KFD : (k_field CR).

Definition triX (A : mat) : mat := fun i j => if (i =? j)%nat then 0 else A i j / (A j j - A i i).
Definition la_tri : linalg := {|
  eig := fun n A => (fun i => A i i, fun i j => if (i =? j)%nat then 1 else A i j / (A j j - A i i));
  minv := fun n v i j => if (i =? j)%nat then 1 else - v i j |}.
Lemma sum_delta' n (g : nat -> CR) i : (i < n)%nat -> ksum (map (fun k => if (k =? i)%nat then g k else 0) (seq 0 n)) = g i.
Proof. intros L. rewrite (ksum_ext _ (fun k => if (i =? k)%nat then g k else 0)); [now apply sum_delta|]. intros k _. now rewrite Nat.eqb_sym. Qed.
Lemma tri_eig n A (rcv : nat -> bool) :
  (forall i j, (i < n)%nat -> (j < n)%nat -> i <> j -> A i j = 0 \/ (rcv i = true /\ rcv j = false /\ A j j - A i i <> 0)) ->
  eig_ok la_tri n A.
Proof.
  intros H. set (X := triX A).
  assert (XX : forall i k j, (i < n)%nat -> (k < n)%nat -> (j < n)%nat -> X i k * X k j = 0).
  { intros i k j Li Lk Lj. unfold X, triX. destruct (Nat.eqb_spec i k) as [->|N1]; [ring|]. destruct (Nat.eqb_spec k j) as [->|N2]; [ring|].
    destruct (H i k Li Lk N1) as [->|(_ & R1 & _)]; [rewrite kdiv_def; ring|]. destruct (H k j Lk Lj N2) as [->|(R2 & _)]; [rewrite !kdiv_def; ring|]. congruence. }
  assert (X0 : forall i, X i i = 0) by (intros i; unfold X, triX; now rewrite Nat.eqb_refl).
  assert (AX : forall i j, (i < n)%nat -> (j < n)%nat -> i <> j -> A i j = X i j * (A j j - A i i)).
  { intros i j Li Lj N. unfold X, triX. destruct (Nat.eqb_spec i j); [contradiction|]. destruct (H i j Li Lj N) as [->|(_ & _ & NZ)]; [rewrite kdiv_def; ring|field; exact NZ]. }
  assert (VE : forall i j : nat, (if (i =? j)%nat then 1 else A i j / (A j j - A i i)) = (if (i =? j)%nat then 1 else 0) + X i j).
  { intros i j. unfold X, triX. destruct (i =? j)%nat; ring. }
  assert (UE : forall i j : nat, (if (i =? j)%nat then 1 else - (if (i =? j)%nat then 1 else A i j / (A j j - A i i))) = (if (i =? j)%nat then 1 else 0) - X i j).
  { intros i j. unfold X, triX. destruct (i =? j)%nat; ring. }
  unfold eig_ok, la_tri. cbn [eig minv fst snd]. split; [|split]; intros i j Li Lj; unfold mmul, meye.
  - rewrite (ksum_ext _ (fun k => (if (i =? k)%nat then A i i * ((if (i =? j)%nat then 1 else 0) + X i j) else 0) + (if (j =? k)%nat then (if (i =? j)%nat then 0 else A i j) else 0))).
    + rewrite ksum_add. rewrite (sum_delta n (fun _ => A i i * ((if (i =? j)%nat then 1 else 0) + X i j)) i Li), (sum_delta n (fun _ => if (i =? j)%nat then 0 else A i j) j Lj).
      rewrite VE. destruct (Nat.eqb_spec i j) as [->|N]; [rewrite X0; ring|]. rewrite (AX i j Li Lj N). ring.
    + intros k I. apply in_seq in I. rewrite VE. destruct (Nat.eqb_spec i k) as [<-|N1].
      * destruct (Nat.eqb_spec j i) as [->|N2]; [rewrite Nat.eqb_refl; ring|]. ring.
      * destruct (Nat.eqb_spec j k) as [<-|N2].
        -- rewrite Nat.eqb_refl, X0. destruct (Nat.eqb_spec i j); [contradiction|]. ring.
        -- destruct (Nat.eqb_spec k j); [congruence|]. rewrite (AX i k) by (try lia; assumption). transitivity ((A k k - A i i) * (X i k * X k j)); [ring|]. rewrite XX by lia. ring.
  - rewrite (ksum_ext _ (fun k => (if (i =? k)%nat then (if (i =? j)%nat then 1 else 0) - X i j else 0) + (if (j =? k)%nat then X i j else 0))).
    + rewrite ksum_add. rewrite (sum_delta n (fun _ => (if (i =? j)%nat then 1 else 0) - X i j) i Li), (sum_delta n (fun _ => X i j) j Lj). destruct (i =? j)%nat; ring.
    + intros k I. apply in_seq in I. rewrite UE, VE. destruct (Nat.eqb_spec i k) as [<-|N1].
      * rewrite X0. destruct (Nat.eqb_spec j i) as [->|N2]; [rewrite X0; ring|]. ring.
      * destruct (Nat.eqb_spec j k) as [<-|N2].
        -- rewrite Nat.eqb_refl, X0. ring.
        -- destruct (Nat.eqb_spec k j); [congruence|]. transitivity (- (X i k * X k j)); [ring|]. rewrite XX by lia. ring.
  - rewrite (ksum_ext _ (fun k => (if (i =? k)%nat then (if (i =? j)%nat then 1 else 0) + X i j else 0) + (if (j =? k)%nat then - X i j else 0))).
    + rewrite ksum_add. rewrite (sum_delta n (fun _ => (if (i =? j)%nat then 1 else 0) + X i j) i Li), (sum_delta n (fun _ => - X i j) j Lj). destruct (i =? j)%nat; ring.
    + intros k I. apply in_seq in I. rewrite UE, VE. destruct (Nat.eqb_spec i k) as [<-|N1].
      * rewrite X0. destruct (Nat.eqb_spec j i) as [->|N2]; [rewrite X0; ring|]. ring.
      * destruct (Nat.eqb_spec j k) as [<-|N2].
        -- rewrite Nat.eqb_refl, X0. ring.
        -- destruct (Nat.eqb_spec k j); [congruence|]. transitivity (- (X i k * X k j)); [ring|]. rewrite XX by lia. ring.
Qed.

(* the table check, for five flavours (b0 = 23/3) *)
Definition diagq (m : amat) (i : nat) : option Q :=
  match dget (nth i m []) i with
  | None => Some 0%Q
  | Some e => option_map (fun x => fst x + snd x * (23 # 3))%Q (leval e)
  end.
Definition tri_ok (m : amat) (rcv : list nat) : bool :=
  forallb (fun ir => forallb (fun je =>
     (fst ir =? fst je)%nat ||
     (kmem (fst je) rcv && negb (kmem (fst ir) rcv) &&
      match diagq m (fst ir), diagq m (fst je) with Some x, Some y => negb (Qeq_bool x y) | _, _ => false end)) (snd ir))
    (combine (seq 0 (List.length m)) m).
Lemma diagq_eval p m n M i q : amat_eval p 5 m = Ok (n, M) -> diagq m i = Some q -> M i i = rc (Q2R q).
Proof.
  intros EM D. pose proof (amat_get p 5 m n M i i EM) as G. unfold diagq in D. destruct (dget (nth i m []) i) as [e|].
  - destruct G as (z & Ez & ->). destruct (leval e) as [x|] eqn:L; [|discriminate]. injection D as <-. rewrite (leval_eval p 5 e x L) in Ez. injection Ez as <-.
    f_equal. unfold lval, b0s. rewrite Q2R_plus, Q2R_mult. f_equal. f_equal. unfold Q2R. cbn. lra.
  - injection D as <-. rewrite G, Q2R_0. reflexivity.
Qed.
Lemma tri_adm bases cls p m rcv : dget adm_table ("adm_s_" ++ cls)%string = Some m -> tri_ok m rcv = true -> adm_ok la_tri bases cls 5 p.
Proof.
  intros Em T n A. unfold adm_reduced. rewrite Em. destruct (amat_eval p 5 m) as [[n0 M]|] eqn:EM; [|discriminate]. cbn [bind].
  unfold get_permissible_wcs. rewrite Z.eqb_refl, orb_true_r. cbn [bind reduce]. intros E. injection E as <- <-.
  assert (N0 : n0 = List.length m).
  { unfold amat_eval in EM. destruct (res_map (arow_eval p 5) m) as [rows|] eqn:RM; [|discriminate]. cbn [rmap] in EM. injection EM as <- _. exact (res_map_length _ _ _ RM). }
  apply (tri_eig n0 (mT M) (fun i => kmem i rcv)). intros i j Li Lj N. unfold mT.
  pose proof (amat_get p 5 m n0 M j i EM) as G. destruct (dget (nth j m []) i) as [e|] eqn:D; [|left; exact G]. right. clear G.
  unfold tri_ok in T. rewrite forallb_forall in T. rewrite N0 in Lj. specialize (T _ (nth_combine_seq m j [] Lj)). cbn [fst snd] in T.
  rewrite forallb_forall in T. specialize (T _ (dget_In _ _ _ D)). cbn [fst snd] in T.
  destruct (Nat.eqb_spec j i) as [|_]; [congruence|]. cbn [orb] in T. apply andb_true_iff in T as [T T3]. apply andb_true_iff in T as [T1 T2].
  apply negb_true_iff in T2. repeat split; auto.
  destruct (diagq m j) as [x|] eqn:Dx; [|discriminate]. destruct (diagq m i) as [y|] eqn:Dy; [|discriminate].
  rewrite (diagq_eval p m n0 M j x EM Dx), (diagq_eval p m n0 M i y EM Dy), <- rc_sub. apply rc_nz.
  apply negb_true_iff in T3. intros Z. assert (Qeq_bool x y = true); [|congruence]. apply Qeq_bool_iff, eqR_Qeq. lra.
Qed.
Definition tri_class (cls : string) (rcv : list nat) : bool :=
  match dget adm_table ("adm_s_" ++ cls)%string with Some m => tri_ok m rcv | None => false end.
Lemma tri_class_ok bases cls p rcv : tri_class cls rcv = true -> adm_ok la_tri bases cls 5 p.
Proof. unfold tri_class. destruct (dget adm_table _) as [m|] eqn:E; [|discriminate]. intros T. exact (tri_adm bases cls p m rcv E T). Qed.
Lemma demo_mue : tri_class "mue" [72; 73]%nat = true. Proof. vm_compute. reflexivity. Qed.
Lemma demo_Vb : tri_class "Vb" [] = true. Proof. vm_compute. reflexivity. Qed.
Lemma demo_Ie : tri_class "Ie" [] = true. Proof. vm_compute. reflexivity. Qed.

(* an EFT with three sectors *)
Definition demo_sectors : list string := ["muemue"; "sbemu"; "mue"; "sbsb"; "sb"].
Definition demo_efts : @eft_reg CR := Some [("WET", mkEFT "WET" (map (fun s => (s, JNull)) demo_sectors) [])].
Definition demo_bases : @basis_reg CR :=
  Some [(("WET", "JMS"), mkBasis "WET" "JMS"
          (Some (map (fun s => (s, map (fun k => (k, JNull)) (match dget coeffs s with Some l => l | None => [] end))) demo_sectors)) None [])].
(* running parameters: alpha_s = 1/m, m_b = 1/m, all other masses 1 *)
Definition demo_running (f : Z) (m : R) : res rpar := if Rlt_dec 0 m then Ok (mkP (/ m) (/ 100) 1 1 1 1 (/ m) 1 1 1) else Err ValueError.
Definition demo_p (m : R) : rpar := mkP (/ m) (/ 100) 1 1 1 1 (/ m) 1 1 1.
Lemma demo_run_ok f m : (0 < m)%R -> demo_running f m = Ok (demo_p m).
Proof. intros P. unfold demo_running. destruct (Rlt_dec 0 m); [reflexivity|contradiction]. Qed.
Lemma demo_p_ok m : (0 < m)%R -> p_ok (demo_p m).
Proof. intros P. assert (Q : (0 < / m)%R) by now apply Rinv_0_lt_compat. repeat split; cbn; auto; try lra. intros []; cbn; lra. Qed.
Definition demo_runner (C : dict string CR) (m : R) (qed qcd : Z) : runner := mkRunner "WET" (Some 5%Z) m C qed qcd.
Lemma demo_total la C a b qed qcd sl h : (0 < a)%R -> (0 < b)%R -> ord_ok qed -> ord_ok qcd ->
  exists w, wet_run la demo_bases demo_efts demo_running (demo_runner C a qed qcd) b sl h = Ok w.
Proof.
  intros A B Q1 Q2. eapply wet_run_total; cbn [demo_runner r_f r_qed r_qcd r_scale r_eft]; try reflexivity; auto.
  - now apply demo_run_ok.
  - now apply demo_run_ok.
  - now apply demo_p_ok.
  - now apply demo_p_ok.
  - intros s I M. apply sector_keys_5; [exact M|]. pose proof sectors_coeffs as T. rewrite forallb_forall in T. apply T.
    rewrite dmem_dget in M. destruct (dget sectors s) as [c|] eqn:E; [|discriminate]. apply dget_In in E. now apply in_map with (f := fst) in E.
Qed.
Definition demo_covers_b (s k : string) : bool :=
  kmem s demo_sectors && match dget coeffs s with Some l => kmem k l | None => false end.
Lemma demo_covers C m qed qcd sl s k : demo_covers_b s k = true -> selected sl s = true ->
  covers demo_bases demo_efts (demo_runner C m qed qcd) sl s k.
Proof.
  intros B SEL. unfold demo_covers_b in B. apply andb_true_iff in B as [B1 B2]. destruct (dget coeffs s) as [l|] eqn:E; [|discriminate].
  apply kmem_In in B1, B2. split; [|split; [exact SEL|split]].
  - eexists. split; [reflexivity|]. cbn [eft_sectors]. unfold dkeys. rewrite map_map. now rewrite map_id.
  - destruct (sector_keys_5 demo_bases s) as [keys EK].
    + destruct (sector_facts s l E) as (cls & ES & _). now rewrite dmem_dget, ES.
    + now rewrite dmem_dget, E.
    + exists 5%Z, keys. split; [reflexivity|]. split; [exact EK|]. unfold sector_keys in EK. rewrite E in EK.
      destruct (String.eqb s "dF=0"); unfold get_permissible_wcs in EK; rewrite Z.eqb_refl, orb_true_r in EK; cbn [rmap] in EK; injection EK as <-; exact B2.
  - eexists. eexists. split; [reflexivity|]. split; [reflexivity|]. unfold sec_wcs. apply in_flat_map.
    exists (s, map (fun k => (k, JNull)) l). split; [apply in_map_iff; exists s; rewrite E; auto|]. cbn [snd]. unfold dkeys. rewrite map_map. now rewrite map_id.
Qed.
