(* From the checkers to statements about all complex arrays. *)
From Coq Require Import List Bool ZArith QArith Arith Lia.
From Verif Require Import PyBase Num Lin SymModel SymTables SymClass SymSpec SymProofs SymCheck.
Import ListNotations.

Lemma all_classes_forall (P : cls -> bool) : forallb P all_classes = true -> forall c, P c = true.
Proof. intros H c. rewrite forallb_forall in H. apply H, all_classes_in. Qed.
Lemma anyb_exists {A} (f : A -> bool) l : anyb f l = true -> exists x, In x l /\ f x = true.
Proof.
  induction l as [|x l IH]; simpl; [discriminate|]. destruct (f x) eqn:E; [eauto|].
  intros H. destruct (IH H) as (y & ? & ?); eauto.
Qed.

Lemma check14_all c : check14 c (S c) = true.
Proof. exact (all_classes_forall (fun c => check14 c (S c)) check14_ok c). Qed.
Lemma check14n_all c : check14 c (SN c) = true.
Proof. exact (all_classes_forall (fun c => check14 c (SN c)) check14n_ok c). Qed.
(* statements do not touch other entries *)
Lemma exec1_other {V} (A : valg V) src (a : idx -> V) x I : I <> asgn_target x -> exec1 A src a x I = a I.
Proof. intros N. destruct x; simpl in *; unfold upd; destruct (keqb_spec I i); congruence. Qed.
Lemma exec_other {V} (A : valg V) p I : forall (a : idx -> V), ~ In I (map asgn_target p) -> exec A p a I = a I.
Proof.
  unfold exec. induction p as [|x p IH]; simpl; intros a N; [reflexivity|].
  rewrite IH by tauto. apply exec1_other. intros E; apply N; now left.
Qed.
Lemma symmetrize_other {V} (A : valg V) c (a : idx -> V) I : ~ In I (indices c) -> symmetrize A c a I = a I.
Proof.
  intros N.
  assert (T : ~ In I (class_targets c)).
  { intros J. apply N. pose proof (all_classes_forall _ targets_ok c) as H. cbv beta in H.
    rewrite forallb_forall in H. apply kmem_In. now apply H. }
  destruct c; try reflexivity; try (now apply exec_other).
  unfold symmetrize, real_part, upd. destruct (keqb_spec I []) as [->|]; [|reflexivity]. simpl in T. tauto.
Qed.
Lemma S_other c I : ~ In I (indices c) -> S c I = satom I.
Proof. apply symmetrize_other. Qed.
Opaque S SN symmetrize symmetrize_nonred unscale exec.
Section F.
Context {K : StarField}.
Local Open Scope K_scope.
Add Field KF3 : (k_field K).
Notation arr := (idx -> K).
Implicit Types (a b : arr).
Notation sym_ := (symmetrize (@k_alg K)).
Notation nonred_ := (symmetrize_nonred (@k_alg K)).
Notation unscale_ := (unscale (@k_alg K)).

Lemma sym_S c b I : sym_ c b I = sden b (S c I).
Proof. apply (RA_symmetrize b c b satom (RA_atom b) I). Qed.
Lemma nonred_SN c b I : nonred_ c b I = sden b (SN c I).
Proof. apply (RA_symmetrize_nonred b c b satom (RA_atom b) I). Qed.

Lemma diag71_not c I : c <> Cl71 -> diag71 c I = false.
Proof. destruct c; try reflexivity. congruence. Qed.

Lemma check14_sound b c (s : idx -> sym) f : c <> Cl71 -> c <> Cl8 -> check14 c s = true -> RA b f s -> has_symmetry c f.
Proof.
  intros N7 N8 H F. apply elems_complete; [exact N8|]. intros g I G II.
  unfold check14 in H. rewrite forallb_forall in H. specialize (H I II). rewrite forallb_forall in H. specialize (H g G).
  rewrite diag71_not in H by assumption. simpl in H. apply (seqb_sound b) in H.
  rewrite F, H. symmetry. apply sact_sound, F.
Qed.
Lemma check14_71_sound b (s : idx -> sym) f : check14 Cl71 s = true -> RA b f s ->
  forall i j k l, lt3 i -> lt3 j -> lt3 k -> lt3 l -> i <> j -> f [j;i;k;l] = - f [i;j;k;l].
Proof.
  intros H F i j k l A B C D NE. unfold check14 in H. rewrite forallb_forall in H.
  assert (II : In [i;j;k;l] (indices Cl71)) by now apply in_ind4.
  specialize (H _ II). rewrite forallb_forall in H.
  specialize (H (mkE (p4 (fun i j k l => [j;i;k;l])) false true)). 
  assert (G : In (mkE (p4 (fun i j k l => [j;i;k;l])) false true) (elems Cl71)) by (simpl; auto).
  specialize (H G). unfold diag71 in H. destruct (Nat.eqb_spec i j); [contradiction|].
  rewrite orb_false_l in H. apply (seqb_sound b) in H. cbn [e_perm p4] in H.
  rewrite F, H. symmetry. apply (sact_sound b (mkE (p4 (fun i j k l => [j;i;k;l])) false true)). apply F.
Qed.
Lemma check14_8_sound b (s : idx -> sym) f : check14_8 s = true -> RA b f s -> has_symmetry Cl8 f.
Proof.
  intros H F p r q t A B C D. unfold check14_8 in H. rewrite forallb_forall in H.
  assert (II : In [p;r;q;t] (indices Cl8)) by now apply in_ind4.
  specialize (H _ II). cbv beta iota in H. apply (seqb_sound b) in H.
  assert (E : forall I J, f I + f J = sden b (v_lin s_alg [(1%Q, s I); (1%Q, s J)])).
  { intros I J. rewrite <- (R_lin b [(1%Q, f I); (1%Q, f J)]).
    - simpl. rewrite !kQ_1. ring.
    - repeat constructor; apply F. }
  now rewrite !E.
Qed.

Lemma S14 c b : c <> Cl71 -> has_symmetry c (sym_ c b).
Proof.
  intros N. pose proof (RA_symmetrize b c b satom (RA_atom b)) as F.
  assert (D : c = Cl8 \/ c <> Cl8) by (destruct c; ((now left)||(right; discriminate))).
  destruct D as [->|N8].
  - exact (check14_8_sound b _ _ check14_8_ok F).
  - exact (check14_sound b c _ _ N N8 (check14_all c) F).
Qed.
Lemma S14n c b : c <> Cl71 -> has_symmetry c (nonred_ c b).
Proof.
  intros N. pose proof (RA_symmetrize_nonred b c b satom (RA_atom b)) as F.
  assert (D : c = Cl8 \/ c <> Cl8) by (destruct c; ((now left)||(right; discriminate))).
  destruct D as [->|N8].
  - exact (check14_8_sound b _ _ check14n_8_ok F).
  - exact (check14_sound b c _ _ N N8 (check14n_all c) F).
Qed.
Lemma S14_71 b i j k l : lt3 i -> lt3 j -> lt3 k -> lt3 l -> i <> j ->
  sym_ Cl71 b [j;i;k;l] = - sym_ Cl71 b [i;j;k;l].
Proof.
  intros. eapply check14_71_sound; eauto.
  - apply check14_all.
  - apply (RA_symmetrize b Cl71 b satom (RA_atom b)).
Qed.


(* diagonal entries of class 71 are scaled copies of the input's *)
Lemma S14_71_gen b (s : idx -> sym) f : check14 Cl71 s = true -> RA b f s ->
  (forall i k l, lt3 i -> lt3 k -> lt3 l -> f [i;i;k;l] = 0) -> has_symmetry Cl71 f.
Proof.
  intros H F Z i j k l A B C D. destruct (Nat.eq_dec i j) as [->|N].
  - rewrite Z by assumption. ring.
  - now apply (check14_71_sound b s f H F).
Qed.
Lemma diag_kept b i k l (s : idx -> sym) : lt3 i -> lt3 k -> lt3 l -> diag_same s = true -> b [i;i;k;l] = 0 -> sden b (s [i;i;k;l]) = 0.
Proof.
  intros A B C H Z. unfold diag_same in H. rewrite forallb_forall in H.
  assert (II : In [i;i;k;l] (indices Cl71)) by now apply in_ind4.
  specialize (H _ II). cbv beta in H. unfold diag71 in H. rewrite Nat.eqb_refl in H.
  apply (seqb_sound b) in H. now rewrite H, sden_atom.
Qed.
Lemma S14_71_diag b : (forall i k l, lt3 i -> lt3 k -> lt3 l -> b [i;i;k;l] = 0) -> has_symmetry Cl71 (sym_ Cl71 b).
Proof.
  intros Z. eapply S14_71_gen; [apply (check14_all Cl71)|apply (RA_symmetrize b Cl71 b satom (RA_atom b))|].
  intros i k l A B C. rewrite sym_S. apply diag_kept; auto; exact (proj1 diag_same_ok).
Qed.
Lemma S14n_71_diag b : (forall i k l, lt3 i -> lt3 k -> lt3 l -> b [i;i;k;l] = 0) -> has_symmetry Cl71 (nonred_ Cl71 b).
Proof.
  intros Z. eapply S14_71_gen; [apply (check14n_all Cl71)|apply (RA_symmetrize_nonred b Cl71 b satom (RA_atom b))|].
  intros i k l A B C. rewrite nonred_SN. apply diag_kept; auto; exact (proj2 diag_same_ok).
Qed.

(* real entries *)
Lemma sden_re_only b I : sden b ([(1%Q, I)], []) = kre (b I).
Proof. unfold sden; cbn [fst snd ldenote]. rewrite kQ_1. ring. Qed.
Lemma kept_sound b c I s : kept c I s = true -> sden b s = if real_entry c I then kre (b I) else b I.
Proof.
  unfold kept. destruct (real_entry c I); intros E; apply (seqb_sound b) in E; rewrite E.
  - apply sden_re_only.
  - apply sden_atom.
Qed.
Lemma S15 c b I : In I (indices c) -> nonredundant c I = true ->
  sym_ c b I = if real_entry c I then kre (b I) else b I.
Proof.
  intros II N. rewrite sym_S. apply kept_sound. pose proof (all_classes_forall _ check15_ok c) as H.
  unfold check15 in H. rewrite forallb_forall in H. specialize (H I II). cbv beta in H. now rewrite N in H.
Qed.

(* fixed points *)
Lemma khalf (x : K) : x + x = 0 -> x = 0.
Proof.
  intros E. replace x with ((x + x) / (1 + 1)) by (field; apply k_2_neq_0). rewrite E. field. apply k_2_neq_0.
Qed.
Lemma kdouble_inj (x y : K) : x + x = y + y -> x = y.
Proof.
  intros E. assert (Z : (x - y) + (x - y) = 0).
  { replace (x - y + (x - y)) with (x + x - (y + y)) by ring. rewrite E. ring. }
  apply khalf in Z. replace x with (x - y + y) by ring. rewrite Z. ring.
Qed.
Lemma fixed_group c b I : c <> Cl8 -> has_symmetry c b -> In I (indices c) -> sden b (S c I) = b I.
Proof.
  intros N8 HS II. pose proof (all_classes_forall _ check_fix_ok c) as H.
  assert (H' : check_fix c = true) by (destruct c; try exact H; congruence). clear H.
  unfold check_fix in H'. rewrite forallb_forall in H'. specialize (H' I II). cbv beta zeta in H'.
  apply anyb_exists in H' as (h & Hh & H). apply anyb_exists in H as (g & Hg & H).
  set (J := e_perm h I) in *.
  destruct (keqb_spec (e_perm g J) I) as [EI|]; [|discriminate].
  destruct (kmem J (indices c)) eqn:EJ; [|discriminate]. apply kmem_In in EJ.
  assert (BI : b I = kact g (b J)) by (rewrite <- EI at 1; now apply (elems_sound c)).
  destruct (seqb (S c I) (sact g (satom J))) eqn:E1.
  - apply (seqb_sound b) in E1. rewrite E1, BI. symmetry. apply sact_sound. unfold R. now rewrite sden_atom.
  - destruct (seqb (S c I) (sact g ([(1%Q, J)], []))) eqn:E2; [|discriminate].
    apply (seqb_sound b) in E2. rewrite E2, BI. symmetry. apply sact_sound. unfold R. rewrite sden_re_only.
    apply anyb_exists in H as (k & Hk & H). apply andb_prop in H as [H EK]. apply andb_prop in H as [C1 C2].
    apply keqb_true in EK. pose proof (elems_sound c b HS k J Hk EJ) as F. rewrite EK in F.
    unfold kact in F. rewrite C1 in F. apply negb_true_iff in C2. rewrite C2 in F.
    symmetry. apply kre_of_real. symmetry. exact F.
Qed.

Lemma fixed_8 b I : has_symmetry Cl8 b -> In I (indices Cl8) -> sden b (S Cl8 I) = b I.
Proof.
  intros HS II. pose proof fix8_ok as H. rewrite forallb_forall in H. specialize (H I II). simpl in HS.
  apply ind4_inv in II as (p & r & q & t & -> & P1 & P2 & P3 & P4); [|reflexivity].
  assert (L0 : lt3 0) by (unfold lt3; lia). assert (L1 : lt3 1) by (unfold lt3; lia). assert (L2 : lt3 2) by (unfold lt3; lia).
  assert (S3 : forall J1 J2 J3, sden b (lin3 J1 J2 J3) = b J1 + b J2 - b J3).
  { intros. unfold lin3.
    assert (F : RL b [(1%Q, b J1); (1%Q, b J2); ((-1)%Q, b J3)] [(1%Q, satom J1); (1%Q, satom J2); ((-1)%Q, satom J3)]).
    { unfold RL. do 3 (apply Forall2_cons; [split; [reflexivity|unfold R; cbn [fst snd]; rewrite sden_atom; reflexivity]|]). apply Forall2_nil. }
    apply R_lin in F. unfold R in F. rewrite <- F.
    cbn [v_lin k_alg ksum fold_right fst snd]. change (-1)%Q with (-(1))%Q. unfold ksum; cbn [fold_right fst snd]. rewrite kQ_opp, !kQ_1. ring. }
  unfold fix8 in H. cbv zeta in H.
  destruct (seqb (S Cl8 [p;r;q;t]) (satom [p;r;q;t])) eqn:E0.
  { apply (seqb_sound b) in E0. rewrite E0. apply sden_atom. }
  destruct (Nat.eqb_spec r q) as [->|].
  { apply (seqb_sound b) in H. rewrite H, sden_atom. apply kdouble_inj.
    exact (HS q q p t P2 P2 P1 P4). }
  destruct (Nat.eqb_spec p r) as [->|].
  { apply (seqb_sound b) in H. rewrite H, sden_atom. apply kdouble_inj. symmetry.
    exact (HS r r q t P2 P2 P3 P4). }
  destruct (keqb_spec [p;r;q] [2;0;1]%nat) as [E|].
  { injection E as -> -> ->. apply (seqb_sound b) in H. rewrite H, S3.
    pose proof (HS 0 2 1 t L0 L2 L1 P4)%nat as E.
    replace (b [2;0;1;t]%nat) with (b [0;2;1;t]%nat + b [2;0;1;t]%nat - b [0;2;1;t]%nat) by ring. rewrite E. ring. }
  destruct (keqb_spec [p;r;q] [2;1;0]%nat) as [E|]; [|discriminate].
  injection E as -> -> ->. apply (seqb_sound b) in H. rewrite H, S3.
  pose proof (HS 1 2 0 t L1 L2 L0 P4)%nat as E.
  replace (b [2;1;0;t]%nat) with (b [1;2;0;t]%nat + b [2;1;0;t]%nat - b [1;2;0;t]%nat) by ring. rewrite E. ring.
Qed.
Lemma fixed_all c b I : has_symmetry c b -> In I (indices c) -> sden b (S c I) = b I.
Proof. destruct c; first [intros; now apply fixed_8|apply fixed_group; discriminate]. Qed.

Lemma RA_sym_self c b : has_symmetry c b -> RA b b (S c).
Proof.
  intros HS I. unfold R. destruct (kmem I (indices c)) eqn:E.
  - apply kmem_In in E. symmetry. now apply fixed_all.
  - apply kmem_nIn in E. rewrite S_other, sden_atom by assumption. reflexivity.
Qed.
Lemma S15_fixed c b I : has_symmetry c b -> In I (indices c) -> sym_ c b I = b I.
Proof. intros. rewrite sym_S. now apply fixed_all. Qed.
Lemma S15_idem c b I : In I (indices c) -> sym_ c (sym_ c b) I = sym_ c b I.
Proof.
  intros II. rewrite sym_S.
  pose proof (RA_symmetrize b c _ _ (RA_symmetrize b c b satom (RA_atom b)) I) as H. unfold R in H.
  rewrite <- (sym_S c (sym_ c b)). rewrite H, (sym_S c b). apply seqb_sound.
  pose proof (all_classes_forall check_idem check_idem_ok c) as C. unfold check_idem in C.
  rewrite forallb_forall in C. exact (C I II).
Qed.
Lemma S15_other c b I : ~ In I (indices c) -> sym_ c b I = b I.
Proof. apply symmetrize_other. Qed.

(* C16 *)
Lemma S16 c b I : In I (indices c) -> nonredundant c I = true ->
  unscale_ c (nonred_ c b) I = if real_entry c I then kre (b I) else b I.
Proof.
  intros II N.
  pose proof (RA_unscale b c _ _ (RA_symmetrize_nonred b c b satom (RA_atom b)) I) as H. unfold R in H.
  rewrite H. apply kept_sound. pose proof (all_classes_forall check16 check16_ok c) as C.
  unfold check16 in C. rewrite forallb_forall in C. specialize (C I II). cbv beta in C. now rewrite N in C.
Qed.
Lemma diag71_zero c b I : has_symmetry c b -> In I (indices c) -> diag71 c I = true -> b I = 0.
Proof.
  intros HS II D. destruct c; simpl in D; try discriminate.
  apply ind4_inv in II as (i & j & k & l & -> & A & B & C & E); [|reflexivity].
  apply Nat.eqb_eq in D as ->. apply khalf. simpl in HS. rewrite (HS j j k l) at 1 by assumption. ring.
Qed.
Lemma RA_project b c f s : RA b f s -> RA b (project 0 c f) (project ([], []) c s).
Proof.
  intros F I. unfold project. destruct (nonredundant c I); [apply F|].
  unfold R, sden; simpl. ring.
Qed.
Lemma S16b c b I : has_symmetry c b -> In I (indices c) ->
  nonred_ c (project 0 c (unscale_ c b)) I = b I.
Proof.
  intros HS II. pose proof (RA_sym_self c b HS) as F.
  pose proof (RA_symmetrize_nonred b c _ _ (RA_project b c _ _ (RA_unscale b c _ _ F)) I) as H. unfold R in H.
  rewrite H. pose proof (all_classes_forall check16b check16b_ok c) as C.
  unfold check16b in C. rewrite forallb_forall in C. specialize (C I II). cbv beta zeta in C.
  destruct (diag71 c I) eqn:D.
  - apply (seqb_sound b) in C. rewrite C, (diag71_zero c b I) by assumption.
    unfold sden; simpl. ring.
  - apply (seqb_sound b) in C. rewrite C. symmetry. apply F.
Qed.

(* C17 *)
Definition ksum_over {A} (l : list A) (f : A -> K) : K := fold_right (fun x r => f x + r) 0 l.
Lemma ksum_over_ext {A} (l : list A) f g : (forall x, In x l -> f x = g x) -> ksum_over l f = ksum_over l g.
Proof.
  induction l as [|x l IH]; intros E; [reflexivity|]. cbn [ksum_over fold_right]. rewrite E by (now left).
  f_equal. apply IH. intros; apply E; now right.
Qed.
Definition pval b (p : patom) : K := if fst p then ki * kim (b (snd p)) else kre (b (snd p)).
Lemma flat_sound b s : ldenote (pval b) (flat s) = sden b s.
Proof.
  unfold flat. rewrite ldenote_app. unfold sden. destruct s as [s t]; cbn [fst snd]. f_equal.
  - induction s as [|[q I] s IH]; cbn [map ldenote fst snd]; [reflexivity|]. rewrite IH. reflexivity.
  - induction t as [|[q I] t IH]; cbn [map ldenote fst snd]; [ring|]. rewrite IH. unfold pval; cbn [fst snd]. ring.
Qed.
Lemma lmul_sound {A B} (f : A -> K) (g : B -> K) (l : lin A) (m : lin B) :
  ldenote (fun p => f (fst p) * g (snd p)) (lmul l m) = ldenote f l * ldenote g m.
Proof.
  unfold lmul. induction l as [|[q x] l IH]; cbn [flat_map]; [simpl; ring|].
  rewrite ldenote_app, IH. cbn [ldenote fst snd].
  enough (E : ldenote (fun p => f (fst p) * g (snd p)) (map (fun y => (Qred (q * fst y), (x, snd y))) m) = kQ q * f x * ldenote g m) by (rewrite E; ring).
  clear IH. induction m as [|[r y] m IHm]; cbn [map ldenote fst snd]; [ring|].
  rewrite IHm, kQ_red, kQ_mul. ring.
Qed.
Lemma flat_map_sound {A B} (f : B -> K) (g : A -> lin B) (l : list A) :
  ldenote f (flat_map g l) = ksum_over l (fun x => ldenote f (g x)).
Proof. induction l as [|x l IH]; cbn [flat_map]; [reflexivity|]. rewrite ldenote_app, IH. reflexivity. Qed.
Lemma S17 c b t : c <> Cl9 -> has_symmetry c t ->
  ksum_over (indices c) (fun I => nonred_ c b I * t I) =
  ksum_over (indices c) (fun I => if nonredundant c I then
     (if real_entry c I then kre (b I) * t I
      else b I * t I + (if hermitian_class c then (b I * t I)^* else 0)) else 0).
Proof.
  intros N9 HS.
  assert (HT : forall I, In I (indices c) -> sden t (canonS c (S c) I) = t I).
  { intros I II. unfold canonS. destruct (diag71 c I) eqn:D.
    - rewrite (diag71_zero c t I) by assumption. unfold sden; simpl. ring.
    - now apply fixed_all. }
  set (f := fun p : patom * patom => pval b (fst p) * pval t (snd p)).
  assert (L : ldenote f (lag_lhs c) = ldenote f (lag_rhs c)).
  { apply leqb_sound. pose proof (all_classes_forall _ check17_ok c) as C. destruct c; try exact C. congruence. }
  unfold lag_lhs, lag_rhs in L. cbv zeta in L. rewrite !flat_map_sound in L.
  transitivity (ksum_over (indices c) (fun I => ldenote f (lmul (flat (SN c I)) (flat (canonS c (S c) I))))).
  { apply ksum_over_ext. intros I II. unfold f. rewrite lmul_sound, !flat_sound, HT by assumption.
    now rewrite nonred_SN. }
  rewrite L. apply ksum_over_ext. intros I II. destruct (nonredundant c I); [|reflexivity].
  destruct (real_entry c I).
  - unfold f. rewrite lmul_sound, !flat_sound, HT by assumption. now rewrite sden_re_only.
  - rewrite ldenote_app. unfold f at 1. rewrite lmul_sound, !flat_sound, HT, sden_atom by assumption. f_equal.
    destruct (hermitian_class c); [|reflexivity]. unfold f. rewrite lmul_sound, !flat_sound.
    rewrite kconj_mul. f_equal; symmetry.
    + apply R_conj. unfold R. now rewrite sden_atom.
    + apply R_conj. unfold R. now rewrite HT.
Qed.

Lemma sden_ext a b s : (forall J, In J (map snd (fst s ++ snd s)) -> a J = b J) -> sden a s = sden b s.
Proof.
  intros E. rewrite map_app in E. unfold sden. f_equal; [|f_equal]; apply ldenote_ext; intros J HJ;
    rewrite E by (apply in_or_app; auto); reflexivity.
Qed.
Lemma S_determined c a b : has_symmetry c a -> has_symmetry c b ->
  (forall I, In I (indices c) -> nonredundant c I = true -> a I = b I) ->
  forall I, In I (indices c) -> a I = b I.
Proof.
  intros HA HB E I II. destruct (diag71 c I) eqn:D.
  - rewrite (diag71_zero c a I), (diag71_zero c b I) by assumption. reflexivity.
  - rewrite <- (fixed_all c a I), <- (fixed_all c b I) by assumption. apply sden_ext.
    intros J HJ. pose proof (all_classes_forall check_det check_det_ok c) as C. unfold check_det in C.
    rewrite forallb_forall in C. specialize (C I II). rewrite D in C. cbn [orb] in C. rewrite forallb_forall in C.
    apply in_map_iff in HJ as ([q J'] & <- & HJ). specialize (C _ HJ). cbn [snd] in *.
    destruct (kmem J' (indices c)) eqn:EJ.
    + apply kmem_In in EJ. now apply E.
    + exfalso. apply kmem_nIn in EJ. apply EJ.
      pose proof (all_classes_forall check_src check_src_ok c) as C2. unfold check_src in C2. rewrite forallb_forall in C2.
      specialize (C2 I II). rewrite forallb_forall in C2. specialize (C2 _ HJ). now apply kmem_In in C2.
Qed.
End F.
