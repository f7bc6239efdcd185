(* Proofs about flavour symmetrization: symbolic evaluation of the tables. *)
From Coq Require Import List Bool ZArith QArith Arith Lia.
From Verif Require Import PyBase Num Lin SymModel SymTables SymClass SymSpec.
Import ListNotations.

Definition sym : Type := lin idx * lin idx.
Definition s_alg : valg sym := {|
  v_lin l := (lsum (map (fun x => (fst x, fst (snd x))) l), lsum (map (fun x => (fst x, snd (snd x))) l));
  v_setre z l := (lsum (map (fun x => (fst x, fst (snd x))) l), snd z);
  v_setim z l := (fst z, lsum (map (fun x => (fst x, snd (snd x))) l));
  v_conj z := (fst z, lscale (-1) (snd z)) |}.
Definition satom (I : idx) : sym := ([(1%Q, I)], [(1%Q, I)]).
Definition seqb (s t : sym) : bool := leqb (fst s) (fst t) && leqb (snd s) (snd t).

Section P.
Context {K : StarField}.
Local Open Scope K_scope.
Add Field KF2 : (k_field K).
Notation arr := (idx -> K).
Implicit Types (a b : arr).

Definition sden b (s : sym) : K := ldenote (fun I => kre (b I)) (fst s) + ki * ldenote (fun I => kim (b I)) (snd s).
Lemma kre_sden b s : kre (sden b s) = ldenote (fun I => kre (b I)) (fst s).
Proof. apply kre_mk; apply ldenote_real; intros; [apply kre_real|apply kim_real]. Qed.
Lemma kim_sden b s : kim (sden b s) = ldenote (fun I => kim (b I)) (snd s).
Proof. apply kim_mk; apply ldenote_real; intros; [apply kre_real|apply kim_real]. Qed.
Lemma sden_atom b I : sden b (satom I) = b I.
Proof. unfold sden, satom; cbn [fst snd ldenote]. rewrite kQ_1. rewrite <- (kre_im (b I)) at 3. ring. Qed.
Lemma seqb_sound b s t : seqb s t = true -> sden b s = sden b t.
Proof.
  intros E. apply andb_prop in E as [E1 E2]. unfold sden. f_equal; [|f_equal]; now apply leqb_sound.
Qed.

Definition R b (k : K) (s : sym) := k = sden b s.
Definition RL b : list (Q * K) -> list (Q * sym) -> Prop :=
  Forall2 (fun x y => fst x = fst y /\ R b (snd x) (snd y)).
Lemma lsum_re b l m : RL b l m ->
  ldenote (fun I => kre (b I)) (lsum (map (fun x => (fst x, fst (snd x))) m)) =
  ksum (map (fun x => (fst x, kre (snd x))) l).
Proof.
  intros F. rewrite ldenote_sum. induction F as [|x y l m [E1 E2] F IH]; [reflexivity|].
  cbn [map fold_right ksum fst snd]. unfold ksum in *. rewrite IH, E1, E2, kre_sden. reflexivity.
Qed.
Lemma lsum_im b l m : RL b l m ->
  ldenote (fun I => kim (b I)) (lsum (map (fun x => (fst x, snd (snd x))) m)) =
  ksum (map (fun x => (fst x, kim (snd x))) l).
Proof.
  intros F. rewrite ldenote_sum. induction F as [|x y l m [E1 E2] F IH]; [reflexivity|].
  cbn [map fold_right ksum fst snd]. unfold ksum in *. rewrite IH, E1, E2, kim_sden. reflexivity.
Qed.
Lemma ksum_re_im (l : list (Q * K)) :
  ksum l = ksum (map (fun x => (fst x, kre (snd x))) l) + ki * ksum (map (fun x => (fst x, kim (snd x))) l).
Proof.
  induction l as [|[q z] l IH]; cbn [map fold_right ksum fst snd]; [unfold ksum; simpl; ring|].
  unfold ksum in *; cbn [fold_right fst snd]. rewrite IH, <- (kre_im z) at 1. ring.
Qed.
Lemma R_lin b l m : RL b l m -> R b (v_lin k_alg l) (v_lin s_alg m).
Proof. intros F. unfold R, sden; cbn [v_lin k_alg s_alg fst snd]. rewrite (lsum_re b l), (lsum_im b l) by assumption. apply ksum_re_im. Qed.
Lemma R_setre b z s l m : R b z s -> RL b l m -> R b (v_setre k_alg z l) (v_setre s_alg s m).
Proof. intros E F. unfold R, sden; cbn [v_setre k_alg s_alg fst snd]. rewrite (lsum_re b l) by assumption. rewrite E, kim_sden. reflexivity. Qed.
Lemma R_setim b z s l m : R b z s -> RL b l m -> R b (v_setim k_alg z l) (v_setim s_alg s m).
Proof. intros E F. unfold R, sden; cbn [v_setim k_alg s_alg fst snd]. rewrite (lsum_im b l) by assumption. rewrite E, kre_sden. reflexivity. Qed.
Lemma R_conj b z s : R b z s -> R b (v_conj k_alg z) (v_conj s_alg s).
Proof.
  intros ->. unfold R; cbn [v_conj k_alg s_alg fst snd]. rewrite kconj_re_im, kre_sden, kim_sden.
  unfold sden; cbn [fst snd]. rewrite ldenote_scale. change (-1)%Q with (-(1))%Q. rewrite kQ_opp, kQ_1. ring.
Qed.

Definition RA b (f : arr) (s : idx -> sym) := forall I, R b (f I) (s I).
Lemma RA_atom b : RA b b satom.
Proof. intros I. unfold R. now rewrite sden_atom. Qed.
Lemma RA_upd b f s i z t : RA b f s -> R b z t -> RA b (upd f i z) (upd s i t).
Proof. intros F E I. unfold upd. destruct (keqb I i); auto. Qed.
Lemma RA_reads b f s rhs : RA b f s -> RL b (reads f rhs) (reads s rhs).
Proof. intros F. unfold reads. induction rhs; simpl; constructor; auto. split; [reflexivity|apply F]. Qed.
Lemma RA_exec1 b f s f' s' x : RA b f s -> RA b f' s' -> RA b (exec1 k_alg f f' x) (exec1 s_alg s s' x).
Proof.
  intros F F'. destruct x; simpl; apply RA_upd; auto.
  - apply R_setre; auto. now apply RA_reads.
  - apply R_setim; auto. now apply RA_reads.
  - apply R_lin; auto. now apply RA_reads.
  - apply R_conj; auto.
Qed.
Lemma RA_exec b p f s : RA b f s -> RA b (exec k_alg p f) (exec s_alg p s).
Proof. unfold exec. revert f s. induction p as [|x p IH]; simpl; auto. intros f s F. apply IH. now apply RA_exec1. Qed.
Lemma RA_exec_from b p f s : RA b f s -> RA b (exec_from k_alg p f) (exec_from s_alg p s).
Proof.
  unfold exec_from. intros F.
  enough (forall g t, RA b g t -> RA b (fold_left (fun a s => exec1 k_alg f a s) p g) (fold_left (fun u x => exec1 s_alg s u x) p t)) by auto.
  induction p as [|x p IH]; simpl; auto. intros g t G. apply IH. now apply RA_exec1.
Qed.
Lemma R_mulq b q z s : R b z s -> R b (mulq k_alg q z) (mulq s_alg q s).
Proof. intros E. apply R_lin. repeat constructor. exact E. Qed.
Lemma RA_times b d f s : RA b f s -> RA b (times k_alg d f) (times s_alg d s).
Proof. intros F I. now apply R_mulq. Qed.
Lemma RA_divided b d f s : RA b f s -> RA b (divided k_alg f d) (divided s_alg s d).
Proof. intros F I. now apply R_mulq. Qed.
Lemma RA_real b f s : RA b f s -> RA b (real_part k_alg f) (real_part s_alg s).
Proof. intros F. apply RA_upd; auto. apply R_setim; auto. constructor. Qed.
Lemma RA_symmetrize b c f s : RA b f s -> RA b (symmetrize k_alg c f) (symmetrize s_alg c s).
Proof. intros F. destruct c; cbn [symmetrize]; auto using RA_exec, RA_real. Qed.
Lemma RA_symmetrize_nonred b c f s : RA b f s -> RA b (symmetrize_nonred k_alg c f) (symmetrize_nonred s_alg c s).
Proof. intros F. destruct c; cbn [symmetrize_nonred]; auto using RA_exec, RA_exec_from, RA_real, RA_divided. Qed.
Lemma RA_unscale b c f s : RA b f s -> RA b (unscale k_alg c f) (unscale s_alg c s).
Proof. intros F. destruct c; cbn [unscale]; auto using RA_times, RA_exec_from. Qed.

(* ---- indices ---- *)
Lemma lt3_cases i : lt3 i -> i = 0%nat \/ i = 1%nat \/ i = 2%nat.
Proof. unfold lt3. lia. Qed.
Lemma in_ind2 c i j : indices c = indices Cl2 -> lt3 i -> lt3 j -> In [i;j] (indices c).
Proof. intros -> A B. apply lt3_cases in A as [->|[->| ->]], B as [->|[->| ->]]; simpl; tauto. Qed.
Lemma in_ind4 c i j k l : indices c = indices Cl4 -> lt3 i -> lt3 j -> lt3 k -> lt3 l -> In [i;j;k;l] (indices c).
Proof.
  intros -> A B C D. unfold indices. rewrite !in_flat_map. exists i. split.
  { apply lt3_cases in A as [->|[->| ->]]; simpl; tauto. }
  rewrite in_flat_map. exists j. split.
  { apply lt3_cases in B as [->|[->| ->]]; simpl; tauto. }
  rewrite in_flat_map. exists k. split.
  { apply lt3_cases in C as [->|[->| ->]]; simpl; tauto. }
  apply in_map_iff. exists l. split; auto.
  apply lt3_cases in D as [->|[->| ->]]; simpl; tauto.
Qed.
Lemma ind2_inv I c : indices c = indices Cl2 -> In I (indices c) -> exists i j, I = [i;j] /\ lt3 i /\ lt3 j.
Proof.
  intros -> H. unfold indices in H. apply in_flat_map in H as (i & A & H). apply in_map_iff in H as (j & <- & B).
  exists i, j. unfold lt3. simpl in A, B. intuition lia.
Qed.
Lemma ind4_inv I c : indices c = indices Cl4 -> In I (indices c) ->
  exists i j k l, I = [i;j;k;l] /\ lt3 i /\ lt3 j /\ lt3 k /\ lt3 l.
Proof.
  intros -> H. unfold indices in H. apply in_flat_map in H as (i & A & H). apply in_flat_map in H as (j & B & H).
  apply in_flat_map in H as (k & C & H). apply in_map_iff in H as (l & <- & D).
  exists i, j, k, l. unfold lt3. simpl in A, B, C, D. intuition lia.
Qed.

(* ---- group elements ---- *)
Record elem := mkE { e_perm : idx -> idx; e_conj : bool; e_neg : bool }.
Definition p2 (f : nat -> nat -> idx) (I : idx) := match I with [i;j] => f i j | _ => I end.
Definition p4 (f : nat -> nat -> nat -> nat -> idx) (I : idx) := match I with [i;j;k;l] => f i j k l | _ => I end.
Definition e_id := mkE (fun I => I) false false.
Definition elems (c : cls) : list elem :=
  match c with
  | Cl0 => [e_id; mkE (fun I => I) true false]
  | Cl1 | Cl3 | Cl8 => [e_id]
  | Cl2 => [e_id; mkE (p2 (fun i j => [j;i])) true false]
  | Cl9 => [e_id; mkE (p2 (fun i j => [j;i])) false false]
  | Cl4 => [e_id; mkE (p4 (fun i j k l => [k;l;i;j])) false false;
            mkE (p4 (fun i j k l => [j;i;l;k])) true false; mkE (p4 (fun i j k l => [l;k;j;i])) true false]
  | Cl41 => [e_id; mkE (p4 (fun i j k l => [k;l;i;j])) false false]
  | Cl5 => [e_id; mkE (p4 (fun i j k l => [j;i;l;k])) true false]
  | Cl6 => [e_id; mkE (p4 (fun i j k l => [k;l;i;j])) false false;
            mkE (p4 (fun i j k l => [i;l;k;j])) false false; mkE (p4 (fun i j k l => [k;j;i;l])) false false;
            mkE (p4 (fun i j k l => [j;i;l;k])) true false; mkE (p4 (fun i j k l => [l;k;j;i])) true false;
            mkE (p4 (fun i j k l => [l;i;j;k])) true false; mkE (p4 (fun i j k l => [j;k;l;i])) true false]
  | Cl7 => [e_id; mkE (p4 (fun i j k l => [j;i;k;l])) false false]
  | Cl71 => [e_id; mkE (p4 (fun i j k l => [j;i;k;l])) false true]
  end.
Definition kact (g : elem) (z : K) : K :=
  let z := if e_conj g then z^* else z in if e_neg g then - z else z.
Definition sact (g : elem) (s : sym) : sym :=
  let s := if e_conj g then v_conj s_alg s else s in if e_neg g then mulq s_alg (-1) s else s.
Lemma sact_sound b g z s : R b z s -> R b (kact g z) (sact g s).
Proof.
  intros E. unfold kact, sact.
  assert (E1 : R b (if e_conj g then z^* else z) (if e_conj g then v_conj s_alg s else s)).
  { destruct (e_conj g); auto. now apply R_conj. }
  destruct (e_neg g); auto.
  pose proof (R_mulq b (-1) _ _ E1) as E2. unfold R in *. rewrite <- E2. unfold mulq; cbn [v_lin k_alg ksum fold_right fst snd].
  change (-1)%Q with (-(1))%Q. rewrite kQ_opp, kQ_1. ring.
Qed.
Lemma elems_sound c b : has_symmetry c b -> forall g I, In g (elems c) -> In I (indices c) -> b (e_perm g I) = kact g (b I).
Proof.
  intros S g I G II. destruct c; simpl in G;
  repeat match goal with H : _ \/ _ |- _ => destruct H as [<-|H] | H : False |- _ => destruct H end;
  unfold kact; cbn [e_perm e_conj e_neg e_id]; try reflexivity; simpl in S.
  - simpl in II. destruct II as [<-|[]]. symmetry. exact S.
  - apply ind2_inv in II as (i & j & -> & A & B); [|reflexivity]. cbn [p2]. now apply S.
  - destruct S as [S1 S2]. apply ind4_inv in II as (i & j & k & l & -> & A & B & C & D); [|reflexivity]. cbn [p4]. now apply S2.
  - destruct S as [S1 S2]. apply ind4_inv in II as (i & j & k & l & -> & A & B & C & D); [|reflexivity]. cbn [p4]. now apply S1.
  - destruct S as [S1 S2]. apply ind4_inv in II as (i & j & k & l & -> & A & B & C & D); [|reflexivity]. cbn [p4].
    rewrite S2 by assumption. now apply S1.
  - apply ind4_inv in II as (i & j & k & l & -> & A & B & C & D); [|reflexivity]. cbn [p4]. now apply S.
  - apply ind4_inv in II as (i & j & k & l & -> & A & B & C & D); [|reflexivity]. cbn [p4]. now apply S.
  - destruct S as (S1 & S2 & S3). apply ind4_inv in II as (i & j & k & l & -> & A & B & C & D); [|reflexivity]. cbn [p4]. now apply S2.
  - destruct S as (S1 & S2 & S3). apply ind4_inv in II as (i & j & k & l & -> & A & B & C & D); [|reflexivity]. cbn [p4]. now apply S3.
  - destruct S as (S1 & S2 & S3). apply ind4_inv in II as (i & j & k & l & -> & A & B & C & D); [|reflexivity]. cbn [p4].
    rewrite (S2 i l k j) by assumption. now apply S3.
  - destruct S as (S1 & S2 & S3). apply ind4_inv in II as (i & j & k & l & -> & A & B & C & D); [|reflexivity]. cbn [p4]. now apply S1.
  - destruct S as (S1 & S2 & S3). apply ind4_inv in II as (i & j & k & l & -> & A & B & C & D); [|reflexivity]. cbn [p4].
    rewrite S2 by assumption. now apply S1.
  - destruct S as (S1 & S2 & S3). apply ind4_inv in II as (i & j & k & l & -> & A & B & C & D); [|reflexivity]. cbn [p4].
    rewrite (S1 i l k j) by assumption. now rewrite S3 by assumption.
  - destruct S as (S1 & S2 & S3). apply ind4_inv in II as (i & j & k & l & -> & A & B & C & D); [|reflexivity]. cbn [p4].
    rewrite (S3 j i l k) by assumption. now apply S1.
  - apply ind4_inv in II as (i & j & k & l & -> & A & B & C & D); [|reflexivity]. cbn [p4]. now apply S.
  - apply ind4_inv in II as (i & j & k & l & -> & A & B & C & D); [|reflexivity]. cbn [p4]. now apply S.
  - apply ind2_inv in II as (i & j & -> & A & B); [|reflexivity]. cbn [p2]. now apply S.
Qed.
(* conversely, invariance under the listed elements is the symmetry *)
Lemma elems_complete c b : c <> Cl8 -> (forall g I, In g (elems c) -> In I (indices c) -> b (e_perm g I) = kact g (b I)) ->
  has_symmetry c b.
Proof.
  intros N H. destruct c; simpl; auto; try congruence.
  - symmetry. apply (H (mkE (fun I => I) true false) []); simpl; auto.
  - intros i j A B. apply (H (mkE (p2 (fun i j => [j;i])) true false) [i;j]); [simpl; auto|now apply in_ind2].
  - split; intros i j k l A B C D.
    + apply (H (mkE (p4 (fun i j k l => [j;i;l;k])) true false) [i;j;k;l]); [simpl; auto|now apply in_ind4].
    + apply (H (mkE (p4 (fun i j k l => [k;l;i;j])) false false) [i;j;k;l]); [simpl; auto|now apply in_ind4].
  - intros i j k l A B C D. apply (H (mkE (p4 (fun i j k l => [k;l;i;j])) false false) [i;j;k;l]); [simpl; auto|now apply in_ind4].
  - intros i j k l A B C D. apply (H (mkE (p4 (fun i j k l => [j;i;l;k])) true false) [i;j;k;l]); [simpl; auto|now apply in_ind4].
  - repeat split; intros i j k l A B C D.
    + apply (H (mkE (p4 (fun i j k l => [j;i;l;k])) true false) [i;j;k;l]); [simpl; auto 10|now apply in_ind4].
    + apply (H (mkE (p4 (fun i j k l => [k;l;i;j])) false false) [i;j;k;l]); [simpl; auto 10|now apply in_ind4].
    + apply (H (mkE (p4 (fun i j k l => [i;l;k;j])) false false) [i;j;k;l]); [simpl; auto 10|now apply in_ind4].
  - intros i j k l A B C D. apply (H (mkE (p4 (fun i j k l => [j;i;k;l])) false false) [i;j;k;l]); [simpl; auto|now apply in_ind4].
  - intros i j k l A B C D. apply (H (mkE (p4 (fun i j k l => [j;i;k;l])) false true) [i;j;k;l]); [simpl; auto|now apply in_ind4].
  - intros i j A B. apply (H (mkE (p2 (fun i j => [j;i])) false false) [i;j]); [simpl; auto|now apply in_ind2].
Qed.
End P.
