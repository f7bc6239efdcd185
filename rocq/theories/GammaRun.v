(* The matrices the runner uses with f flavours. *)
From Coq Require Import List Bool ZArith QArith Reals Arith Lia String.
From Verif Require Import PyBase Num EftModel WcxfModel RealC AdmData WetModel WetSpec WetProofs WetSector WetUnmix FermiSpec NpModel NpProofs FermiNorm FermiTab FermiProofs ParProofs GammaSpec GammaTab GammaProofs GammaOps GammaCanon GammaSect.
Import ListNotations.
Local Open Scope string_scope.
Local Open Scope list_scope.
Local Open Scope K_scope.
Add Field KFgu : (k_field CR).

(* ---------- sums over some of the positions ---------- *)
Lemma sum_sub (N : nat) ps : forall F : nat -> CR, NoDup ps -> (forall i, In i ps -> (i < N)%nat) -> (forall i, ~ In i ps -> F i = 0) ->
  ksum (map F (seq 0 N)) = ksum (map F ps).
Proof.
  induction ps as [|k r IH]; intros F ND IN Z.
  - apply ksum_zero. intros i _. apply Z. intros [].
  - inversion ND as [|? ? N1 N2]; subst. cbn [map]. rewrite ksum_cons.
    rewrite <- (delta_sum k F k 0 N) by (specialize (IN k (or_introl eq_refl)); lia).
    rewrite <- (ksum_ext (fun i => if Nat.eqb i k then 0 else F i) F r).
    2:{ intros i I. destruct (Nat.eqb_spec i k) as [->|]; [contradiction|reflexivity]. }
    rewrite <- (IH (fun i => if Nat.eqb i k then 0 else F i) N2).
    + rewrite <- ksum_add. apply ksum_ext. intros i _. destruct (Nat.eqb_spec i k) as [->|]; ring.
    + intros i I. apply IN. now right.
    + intros i NI. destruct (Nat.eqb_spec i k) as [|NE]; [reflexivity|]. apply Z. intros [E|I]; [congruence|contradiction].
Qed.
Fixpoint idx (i : nat) (ps : list nat) : option nat := match ps with [] => None | k :: r => if Nat.eqb i k then Some 0%nat else option_map S (idx i r) end.
Lemma idx_nth ps : NoDup ps -> forall a, (a < List.length ps)%nat -> idx (nth a ps 0%nat) ps = Some a.
Proof.
  induction ps as [|k r IH]; intros ND a L; [cbn in L; lia|]. inversion ND as [|? ? N1 N2]; subst. destruct a as [|a]; cbn [nth idx]; [now rewrite Nat.eqb_refl|].
  cbn [List.length] in L. destruct (Nat.eqb_spec (nth a r 0%nat) k) as [E|_]; [exfalso; apply N1; rewrite <- E; apply nth_In; lia|]. now rewrite IH by (try assumption; lia).
Qed.
Lemma idx_none i ps : ~ In i ps -> idx i ps = None.
Proof. induction ps as [|k r IH]; intros H; [reflexivity|]. cbn [idx]. destruct (Nat.eqb_spec i k) as [->|]; [exfalso; apply H; now left|]. rewrite IH; [reflexivity|]. intros I. apply H. now right. Qed.
Definition spread (ps : list nat) (C : nat -> CR) (i : nat) : CR := match idx i ps with Some a => C a | None => 0 end.
Lemma map_nth_seq {X} (F : nat -> X) ps : map F ps = map (fun a => F (nth a ps 0%nat)) (seq 0 (List.length ps)).
Proof.
  induction ps as [|k r IH]; [reflexivity|]. cbn [map List.length seq nth]. f_equal. rewrite <- seq_shift, map_map. exact IH.
Qed.
Lemma sum_spread N ps (P : nat -> CR -> CR) (C : nat -> CR) : NoDup ps -> (forall i, In i ps -> (i < N)%nat) -> (forall i, P i 0 = 0) ->
  ksum (map (fun a => P (nth a ps 0%nat) (C a)) (seq 0 (List.length ps))) = ksum (map (fun i => P i (spread ps C i)) (seq 0 N)).
Proof.
  intros ND IN Z. rewrite (sum_sub N ps (fun i => P i (spread ps C i)) ND IN).
  - rewrite (map_nth_seq (fun i => P i (spread ps C i)) ps). apply ksum_ext. intros a I. apply in_seq in I. unfold spread. now rewrite idx_nth by (try assumption; lia).
  - intros i NI. unfold spread. rewrite idx_none by exact NI. apply Z.
Qed.

(* ---------- monomials without a field of the operator ---------- *)
Lemma sgn_absent x l : forall m, In x l -> ~ In x m -> FermiSpec.sgn comp_eqb l m = 0%Z.
Proof.
  induction l as [|a r IH]; intros m I NI; [destruct I|]. cbn [FermiSpec.sgn]. destruct (take comp_eqb a m) as [[s m']|] eqn:T; [|reflexivity].
  destruct I as [->|I].
  - rewrite (take_notin comp_eqb comp_eqb_spec x m NI) in T. discriminate.
  - rewrite (IH m' I); [lia|]. intros J. apply NI. exact (take_incl comp_eqb comp_eqb_spec _ _ _ _ T _ J).
Qed.
Lemma absent_zero o b l fm : flavs o = true -> In fm (fields o) -> (forall c, In c l -> comp_ferm c <> fm) -> pv (cfv (K := CR) (b, l)) (poly_of o) = 0.
Proof.
  destruct o as [d c x y f1 f2 f3 f4| |]; try discriminate. intros V IF AB. destruct (V4 _ _ _ _ _ _ _ _ V) as (HD & HC & _). rewrite four_value by assumption.
  rewrite (fv2_ext _ (fun _ _ => 0)).
  - unfold fv2. rewrite (fv_ext _ (fun _ => 0)); [apply fv_zero|]. intros s. apply fv_zero.
  - intros [[s1 s2] [s3 s4]] [[c1 c2] [c3 c4]]. unfold hs, cfv, slots. cbn [get4 fst snd]. destruct (bos_eqb NoB b); [|reflexivity].
    assert (G : forall z : comp, In z [cp true f1 s1 c1; cp false f2 s2 c2; cp true f3 s3 c3; cp false f4 s4 c4] -> comp_ferm z = fm -> kZ (FermiSpec.sgn comp_eqb [cp true f1 s1 c1; cp false f2 s2 c2; cp true f3 s3 c3; cp false f4 s4 c4] l) = 0 :> CR).
    { intros z Iz Ez. rewrite (sgn_absent z); [reflexivity|exact Iz|]. intros J. exact (AB z J Ez). }
    cbn [fields In] in IF. destruct IF as [E|[E|[E|[E|[]]]]]; subst fm;
      [apply (G (cp true f1 s1 c1))|apply (G (cp false f2 s2 c2))|apply (G (cp true f3 s3 c3))|apply (G (cp false f4 s4 c4))]; cbn; tauto.
Qed.
Lemma fields_hc o fm : flavs o = true -> In fm (fields o) -> In fm (fields (hcop o)).
Proof. destruct o; try discriminate. cbn [fields hcop In]. tauto. Qed.
Lemma hc_absent o b l fm : NoDup l -> flavs o = true -> In fm (fields o) -> (forall c, In c l -> comp_ferm c <> fm) -> pv (cfv (K := CR) (b, l)) (hc (poly_of o)) = 0.
Proof.
  intros ND V IF AB. rewrite (hc_ok _ (cfv_anti b l ND) o V). apply (absent_zero _ b l fm (flavs_hc _ V)); [now apply fields_hc|exact AB].
Qed.

Lemma nodup_all s all : dget coeffs s = Some all -> NoDup all.
Proof. intros E. exact (flat_nodup coeffs s all all_keys_nodup (dget_In _ _ _ E)). Qed.
Section R.
Variable bases : @basis_reg CR.
Lemma positions s f keys cls all g p n A : sector_keys bases s f = Ok keys -> dget sectors s = Some cls -> dget coeffs s = Some all ->
  adm_reduced bases (adm_prefix g) cls f p = Ok (n, A) ->
  exists ps am n0 F, keys = map (fun i => nth i all "") ps /\ NoDup ps /\ (forall i, In i ps -> (i < List.length all)%nat) /\
    dget adm_table (adm_prefix g ++ cls)%string = Some am /\ amat_eval p f am = Ok (n0, F) /\
    forall a b, (a < List.length ps)%nat -> (b < List.length ps)%nat -> A a b = F (nth a ps 0%nat) (nth b ps 0%nat).
Proof.
  intros EK ES EA ER. destruct (sector_facts s all EA) as (cls' & ES' & _ & F2). assert (cls' = cls) by congruence. subst cls'.
  unfold sector_keys in EK. rewrite EA, <- F2 in EK. destruct (get_permissible_wcs bases cls f) as [perm|] eqn:EP; [|discriminate]. cbn [rmap] in EK.
  unfold adm_reduced in ER. destruct (dget adm_table (adm_prefix g ++ cls)%string) as [am|] eqn:EM; [|discriminate].
  destruct (amat_eval p f am) as [[n0 F]|] eqn:EV; [|discriminate]. cbn [bind] in ER. rewrite EP in ER. cbn [bind] in ER. apply Ok_eq in ER.
  destruct perm as [l|].
  - injection EK as <-. cbn [reduce fst snd] in ER. injection ER as <- <-.
    assert (PF : exists P n, l = filter P (seq 0 n) /\ n = List.length all).
    { pose proof (F2 bases f) as G. rewrite EP in G. symmetry in G. destruct (String.eqb_spec s "dF=0") as [->|N].
      - destruct (perm_form bases _ _ _ G) as (P & n1 & E & H). exists P, n1. split; [exact E|]. apply H. exact EA.
      - destruct (perm_form bases _ _ _ G) as (P & n1 & E & H). exists P, n1. split; [exact E|]. apply H.
        destruct (String.eqb_spec s "dF0") as [X|_]; [rewrite X in EA; discriminate EA|exact EA]. }
    destruct PF as (P & n1 & -> & ->). exists (filter P (seq 0 (List.length all))), am, n0, F. split; [reflexivity|]. split; [apply NoDup_filter, seq_NoDup|]. split.
    + intros i I. apply filter_In in I as [I _]. apply in_seq in I. lia.
    + split; [first [exact EM|reflexivity]|]. split; [exact EV|]. intros a b _ _. reflexivity.
  - injection EK as <-. cbn [reduce] in ER. injection ER as <- <-. exists (seq 0 (List.length all)), am, n0, F. split.
    + clear. induction all as [|k r IH]; [reflexivity|]. cbn [List.length seq map nth]. f_equal. rewrite <- seq_shift, map_map. exact IH.
    + split; [apply seq_NoDup|]. split; [intros i I; apply in_seq in I; lia|]. split; [first [exact EM|reflexivity]|]. split; [exact EV|].
      intros a b La Lb. rewrite seq_length in La, Lb. now rewrite !seq_nth by assumption.
Qed.
Lemma runner_matrix s cls g f p all keys n A (C : nat -> CR) b l : cls <> "inv" -> (cls = "sb" -> forall i, (C i)^* = C i) ->
  dget sectors s = Some cls -> dget coeffs s = Some all -> sector_keys bases s f = Ok keys -> adm_reduced bases (adm_prefix g) cls f p = Ok (n, A) ->
  (forall k o, In k all -> ~ In k keys -> four_op k = Some o -> exists fm, In fm (fields o) /\ forall c, In c l -> comp_ferm c <> fm) ->
  hermitian_real keys C -> NoDup l ->
  four_lagrangian (dressed g) keys C (b, l) = four_lagrangian (fun q => q) keys (mixed keys A C) (b, l).
Proof.
  intros NI RC ES EA EK ER AB HR ND. destruct (positions s f keys cls all g p n A EK ES EA ER) as (ps & am & n0 & F & -> & NP & IP & EM & EV & EQ).
  pose proof (sect_fact s cls all g ES EA) as CK. destruct (String.eqb_spec cls "inv"); [contradiction|].
  assert (EM' : dget adm_table (mat_name g cls) = Some am) by (destruct g; exact EM). rewrite EM' in CK.
  set (CC := spread ps C).
  assert (LK : List.length (map (fun i => nth i all "") ps) = List.length ps) by apply map_length.
  assert (NK : forall a, (a < List.length ps)%nat -> nth a (map (fun i => nth i all "") ps) "" = nth (nth a ps 0%nat) all "").
  { intros a L. rewrite (nth_indep _ "" (nth 0 all "")) by lia. exact (map_nth (fun i => nth i all "") ps 0%nat a). }
  assert (HC : hermitian_real all CC).
  { intros i o L E S. unfold CC, spread. destruct (idx i ps) as [a|] eqn:D; [|apply kconj_0].
    assert (X : (a < List.length ps)%nat /\ nth a ps 0%nat = i).
    { clear - D. revert a D. induction ps as [|k r IH]; intros a D; [discriminate|]. cbn [idx] in D. destruct (Nat.eqb_spec i k) as [->|_].
      - injection D as <-. cbn. split; [lia|reflexivity].
      - destruct (idx i r) as [a'|]; [|discriminate]. injection D as <-. destruct (IH a' eq_refl). cbn. split; [lia|assumption]. }
    destruct X as [X1 X2]. apply (HR a o); [lia| |exact S]. rewrite NK, X2 by exact X1. exact E. }
  pose proof (mat_chk_ok g (String.eqb cls "sb") all (b, l) ND am p f n0 F CC CK EV HC) as MAIN.
  assert (RR : String.eqb cls "sb" = true -> forall i, (CC i)^* = CC i).
  { intros E i. apply String.eqb_eq in E. unfold CC, spread. destruct (idx i ps); [now apply RC|apply kconj_0]. }
  specialize (MAIN RR).
  set (P := fun (D : poly -> poly) (i : nat) (z : CR) => match four_op (nth i all "") with Some o => weight o * (z * coefficient (D (poly_of o)) (b, l) + z^* * coefficient (D (hc (poly_of o))) (b, l)) | None => 0 end).
  assert (PZ : forall D i, P D i 0 = 0) by (intros D i; unfold P; destruct (four_op (nth i all "")); rewrite ?kconj_0; ring).
  assert (LHS : four_lagrangian (dressed g) (map (fun i => nth i all "") ps) C (b, l) = four_lagrangian (dressed g) all CC (b, l)).
  { unfold four_lagrangian. rewrite LK. refine (eq_trans _ (sum_spread (List.length all) ps (P (dressed g)) C NP IP (PZ _))). apply ksum_ext. intros a I. apply in_seq in I.
    unfold P. now rewrite NK by lia. }
  rewrite LHS, MAIN. clear LHS MAIN.
  assert (MX : forall a, (a < List.length ps)%nat -> mixed (map (fun i => nth i all "") ps) A C a = mixed all F CC (nth a ps 0%nat)).
  { intros a L. unfold mixed. rewrite LK.
    refine (eq_trans _ (sum_spread (List.length all) ps (fun j z => match four_op (nth j all "") with Some _ => F j (nth a ps 0%nat) * z | None => 0 end) C NP IP _)).
    - apply ksum_ext. intros a' I. apply in_seq in I. rewrite NK by lia. now rewrite EQ by lia.
    - intros j. destruct (four_op (nth j all "")); ring. }
  unfold four_lagrangian. rewrite LK.
  transitivity (ksum (map (fun i => P (fun q => q) i (mixed all F CC i)) ps)).
  - apply (sum_sub (List.length all) ps (fun i => P (fun q => q) i (mixed all F CC i)) NP IP). intros i NIi. unfold P.
    destruct (le_lt_dec (List.length all) i) as [Lo|Li]; [rewrite nth_overflow by exact Lo; reflexivity|].
    destruct (four_op (nth i all "")) as [o|] eqn:EO; [|reflexivity].
    assert (V : flavs o = true).
    { unfold mat_chk in CK. cbv zeta in CK. apply andb_prop in CK as [_ CK]. rewrite forallb_forall in CK. specialize (CK _ (numbered_In all i "" Li)). cbn [fst snd] in CK. rewrite EO in CK.
      unfold row_chk in CK. do 5 apply andb_prop in CK as [CK _]. exact CK. }
    destruct (in_dec Nat.eq_dec i ps) as [J|_]; [contradiction|].
    assert (NIN : ~ In (nth i all "") (map (fun i => nth i all "") ps)).
    { intros J. apply in_map_iff in J as (j & Ej & Ij). apply NIi. assert (j = i); [|congruence].
      pose proof (nodup_all s all EA) as NA. exact (proj1 (NoDup_nth all "") NA j i (IP j Ij) Li Ej). }
    destruct (AB _ o (nth_In all "" Li) NIN EO) as (fm & IF & AF). rewrite !coefficient_pv, (absent_zero o b l fm V IF AF), (hc_absent o b l fm ND V IF AF). ring.
  - rewrite (map_nth_seq (fun i => P (fun q => q) i (mixed all F CC i)) ps). apply ksum_ext. intros a I. apply in_seq in I. unfold P. rewrite NK, MX by lia. reflexivity.
Qed.
End R.
