(* Flavour rotations: what the code computes, and the algebra of rotations. *)
From Coq Require Import List Bool ZArith QArith Arith Lia String Ascii Permutation.
From Verif Require Import PyBase Num SymModel EftModel NpModel NpProofs BetaSpec BetaCov RotModel.
Import ListNotations.
Local Open Scope string_scope.
Local Open Scope list_scope.

(* ---------- permutations of indices ---------- *)
Definition perm_ok (p : list nat) (n : nat) : bool :=
  knodup (map (permute p) (idxs n)) && forallb (fun I => kmem (permute p I) (idxs n)) (idxs n).
Lemma perm_idxs p n : perm_ok p n = true -> Permutation (map (permute p) (idxs n)) (idxs n).
Proof.
  unfold perm_ok. rewrite andb_true_iff. intros [A B]. apply NoDup_Permutation_bis.
  - now apply knodup_NoDup.
  - rewrite map_length. lia.
  - intros I HI. apply in_map_iff in HI as (J & <- & HJ). rewrite forallb_forall in B. specialize (B J HJ). now apply kmem_In.
Qed.

Section Rot.
Context {K : StarField}.
Local Open Scope K_scope.
Add Field KFrot : (k_field K).
Notation cdict := (dict string (cval K)).

Lemma ksum_permute (G : idx -> K) p n : perm_ok p n = true -> ksum (map (fun s => G (permute p s)) (idxs n)) = ksum (map G (idxs n)).
Proof. intros P. rewrite <- (map_map (permute p) G). apply ksum_perm, Permutation_map, perm_idxs, P. Qed.

(* ---------- the algebra ---------- *)
Definition mulU (U W : field -> nat -> nat -> K) (f : field) (j i : nat) : K := ksum (map (fun m => U f j m * W f m i) (seq 0 3)).
Lemma rotf_mul (U W : field -> nat -> nat -> K) t j i : rotf (mulU U W) t j i = ksum (map (fun m => rotf U t j m * rotf W t m i) (seq 0 3)).
Proof. unfold rotf, mulU. destruct (snd t); [|reflexivity]. rewrite ksum_conj. apply ksum_ext. intros. now rewrite kconj_mul. Qed.
Lemma ksum_idxs_S (F : idx -> K) n : ksum (map F (idxs (Datatypes.S n))) = ksum (map (fun i => ksum (map (fun J => F (i :: J)) (idxs n))) (seq 0 3)).
Proof. rewrite idxs_S, ksum_flat_map. apply ksum_ext. intros i _. now rewrite map_map. Qed.
Lemma rotprod_mul (U W : field -> nat -> nat -> K) ts : forall J I, List.length J = List.length ts -> List.length I = List.length ts ->
  ksum (map (fun M => rotprod U ts J M * rotprod W ts M I) (idxs (List.length ts))) = rotprod (mulU U W) ts J I.
Proof.
  induction ts as [|t ts IH]; intros J I LJ LI.
  - cbn. unfold ksum. cbn. ring.
  - destruct J as [|j J], I as [|i I]; try discriminate. cbn [List.length] in *. injection LJ as LJ. injection LI as LI.
    rewrite ksum_idxs_S. cbn [rotprod]. rewrite rotf_mul, <- (IH J I LJ LI), <- ksum_scale_r. apply ksum_ext. intros m _.
    rewrite <- ksum_scale. apply ksum_ext. intros M _. ring.
Qed.
Lemma rot_ext (U : field -> nat -> nat -> K) ts (f g : idx -> K) I : (forall J, In J (idxs (List.length ts)) -> f J = g J) -> rot U ts f I = rot U ts g I.
Proof. intros E. unfold rot. fold (idxs (List.length ts)). apply ksum_ext. intros J HJ. now rewrite E. Qed.
Lemma rot_mul (U W : field -> nat -> nat -> K) ts (f : idx -> K) I : List.length I = List.length ts -> rot W ts (rot U ts f) I = rot (mulU U W) ts f I.
Proof.
  intros LI. unfold rot. fold (idxs (List.length ts)).
  transitivity (ksum (map (fun M => ksum (map (fun J => rotprod U ts J M * rotprod W ts M I * f J) (idxs (List.length ts)))) (idxs (List.length ts)))).
  { apply ksum_ext. intros M _. rewrite <- ksum_scale. apply ksum_ext. intros J _. ring. }
  rewrite ksum_swap. apply ksum_ext. intros J HJ. rewrite ksum_scale_r. f_equal. apply rotprod_mul; [|exact LI]. now apply idxs_length.
Qed.
Lemma rotprod_ext (U W : field -> nat -> nat -> K) ts : (forall f j i, (j < 3)%nat -> (i < 3)%nat -> U f j i = W f j i) ->
  forall J I, (forall x, In x J -> (x < 3)%nat) -> (forall x, In x I -> (x < 3)%nat) -> rotprod U ts J I = rotprod W ts J I.
Proof.
  intros E. induction ts as [|t ts IH]; intros J I BJ BI; [reflexivity|]. destruct J as [|j J], I as [|i I]; try reflexivity.
  cbn [rotprod]. rewrite IH by (intros; (apply BJ + apply BI); now right). f_equal. unfold rotf.
  rewrite E by ((apply BJ + apply BI); now left). reflexivity.
Qed.
Lemma rot_extU (U W : field -> nat -> nat -> K) ts (f : idx -> K) I : (forall f j i, (j < 3)%nat -> (i < 3)%nat -> U f j i = W f j i) ->
  (forall x, In x I -> (x < 3)%nat) -> rot U ts f I = rot W ts f I.
Proof.
  intros E BI. unfold rot. fold (idxs (List.length ts)). apply ksum_ext. intros J HJ. f_equal. apply rotprod_ext; [exact E| |exact BI].
  apply in_idxs in HJ. apply HJ.
Qed.
Lemma delta_conj j i : (delta j i : K)^* = delta j i.
Proof. unfold delta. destruct (Nat.eqb j i); [apply kconj_1|apply kconj_0]. Qed.
Lemma ksum_delta (F : nat -> K) i : (i < 3)%nat -> ksum (map (fun j => delta j i * F j) (seq 0 3)) = F i.
Proof.
  intros B. unfold delta. cbn [seq map]. rewrite !ksum_cons. change (ksum (@nil K)) with (0 : K).
  destruct i as [|[|[|i]]]; try lia; cbn [Nat.eqb]; ring.
Qed.
Lemma rot_id ts : forall (f : idx -> K) I, In I (idxs (List.length ts)) -> rot (fun _ => delta) ts f I = f I.
Proof.
  induction ts as [|t ts IH]; intros f I HI.
  - destruct HI as [<-|[]]. unfold rot. cbn. unfold ksum. cbn. ring.
  - cbn [List.length] in HI. apply in_idxs in HI as [L B]. destruct I as [|i I]; [discriminate|].
    unfold rot. fold (idxs (List.length (t :: ts))). cbn [List.length]. rewrite ksum_idxs_S.
    transitivity (ksum (map (fun j => delta j i * rot (fun _ => delta) ts (fun J => f (j :: J)) I) (seq 0 3))).
    { apply ksum_ext. intros j _. unfold rot. fold (idxs (List.length ts)). rewrite <- ksum_scale. apply ksum_ext. intros J _. cbn [rotprod].
      assert (X : rotf (fun _ => delta) t j i = delta j i) by (unfold rotf; destruct (snd t); [apply delta_conj|reflexivity]). rewrite X. ring. }
    rewrite (ksum_delta (fun j => rot (fun _ => delta) ts (fun J => f (j :: J)) I)) by (apply B; now left).
    apply (IH (fun J => f (i :: J)) I). apply in_idxs. split; [now injection L|]. intros x X. apply B. now right.
Qed.
Definition dagU (U : field -> nat -> nat -> K) (f : field) (j i : nat) : K := (U f i j)^*.
Lemma rot_unitary (U : field -> nat -> nat -> K) ts (f : idx -> K) I : (forall f, unitary3 (U f)) -> In I (idxs (List.length ts)) -> rot (dagU U) ts (rot U ts f) I = f I.
Proof.
  intros HU HI. rewrite rot_mul by (now apply idxs_length). rewrite <- (rot_id ts f I HI). apply rot_extU.
  - intros g j i Hj Hi. unfold mulU, dagU. exact (proj2 (HU g j i Hj Hi)).
  - apply in_idxs in HI. apply HI.
Qed.

(* ---------- symmetries ---------- *)
Definition nperm (p : list nat) (n : nat) : bool := Nat.eqb (List.length p) n && forallb (fun i => (i <? n)%nat) p && knodup p.
Lemma rotprod_nth (U : field -> nat -> nat -> K) ts J I : List.length J = List.length ts -> List.length I = List.length ts ->
  rotprod U ts J I = kprod (map (fun l => rotf U (nth l ts (Fq, false)) (nth l J 0%nat) (nth l I 0%nat)) (seq 0 (List.length ts))).
Proof.
  revert J I. induction ts as [|t ts IH]; intros J I LJ LI; [reflexivity|].
  destruct J as [|j J], I as [|i I]; try discriminate. cbn [List.length] in *. cbn [rotprod seq map nth]. rewrite kprod_cons. f_equal.
  rewrite IH by congruence. rewrite <- seq_shift, map_map. reflexivity.
Qed.
Lemma rotf_flip (U : field -> nat -> nat -> K) t j i : rotf U (flip t) j i = (rotf U t j i)^*.
Proof. unfold rotf, flip. cbn [fst snd]. destruct (snd t); cbn [negb]; [now rewrite kconj_conj|reflexivity]. Qed.
Lemma rotprod_perm (U : field -> nat -> nat -> K) p (c : bool) (ts : list slot) J I : nperm p (List.length ts) = true -> map (fun i => nth i ts (Fq, false)) p = (if c then map flip ts else ts) ->
  List.length J = List.length ts -> List.length I = List.length ts ->
  rotprod U ts (permute p J) (permute p I) = cj c (rotprod U ts J I).
Proof.
  intros NP TP LJ LI. unfold nperm in NP. rewrite !andb_true_iff in NP. destruct NP as [[LP BP] ND]. apply Nat.eqb_eq in LP. apply knodup_NoDup in ND.
  rewrite forallb_forall in BP.
  assert (PP : Permutation p (seq 0 (List.length ts))).
  { apply NoDup_Permutation_bis; [exact ND|rewrite seq_length; lia|]. intros i Hi. apply BP in Hi. apply Nat.ltb_lt in Hi. apply in_seq. lia. }
  assert (LPJ : List.length (permute p J) = List.length ts) by (unfold permute; now rewrite map_length).
  assert (LPI : List.length (permute p I) = List.length ts) by (unfold permute; now rewrite map_length).
  rewrite (rotprod_nth U ts (permute p J) (permute p I) LPJ LPI).
  transitivity (kprod (map (fun l => cj c (rotf U (nth (nth l p 0%nat) ts (Fq, false)) (nth (nth l p 0%nat) J 0%nat) (nth (nth l p 0%nat) I 0%nat))) (seq 0 (List.length ts)))).
  { apply kprod_ext. intros l Hl. apply in_seq in Hl. 
    assert (NJ : forall X : idx, nth l (permute p X) 0%nat = nth (nth l p 0%nat) X 0%nat).
    { intros X. unfold permute. rewrite (nth_indep _ 0%nat (nth 0 X 0%nat)) by (rewrite map_length; lia). apply (map_nth (fun i => nth i X 0%nat)). }
    rewrite !NJ.
    assert (NT : nth (nth l p 0%nat) ts (Fq, false) = (if c then flip (nth l ts (Fq, false)) else nth l ts (Fq, false))).
    { transitivity (nth l (map (fun i => nth i ts (Fq, false)) p) (Fq, false)).
      - rewrite (nth_indep (map (fun i => nth i ts (Fq, false)) p) (Fq, false) (nth 0 ts (Fq, false))) by (rewrite map_length; lia). symmetry. apply (map_nth (fun i => nth i ts (Fq, false))).
      - rewrite TP. destruct c; [|reflexivity]. rewrite (nth_indep (map flip ts) (Fq, false) (flip (Fq, false))) by (rewrite map_length; lia). apply map_nth. }
    rewrite NT. destruct c; cbn [cj]; [|reflexivity]. rewrite rotf_flip, kconj_conj. reflexivity. }
  transitivity (kprod (map (fun l => cj c (rotf U (nth l ts (Fq, false)) (nth l J 0%nat) (nth l I 0%nat))) p)).
  { rewrite <- LP at 1. clear - K. set (F := fun l => cj c (rotf U (nth l ts (Fq, false)) (nth l J 0%nat) (nth l I 0%nat))).
    change (kprod (map (fun l => F (nth l p 0%nat)) (seq 0 (List.length p))) = kprod (map F p)). f_equal.
    rewrite <- (map_map (fun l => nth l p 0%nat) F). f_equal. 
    clear. induction p as [|x p IH]; [reflexivity|]. cbn [List.length seq map nth]. f_equal. rewrite <- seq_shift, map_map. exact IH. }
  rewrite (kprod_perm _ _ (Permutation_map _ PP)), (rotprod_nth U ts J I LJ LI). destruct c; cbn [cj]; [|reflexivity].
  now rewrite kprod_conj.
Qed.
Lemma permute_idxs p n I : nperm p n = true -> In I (idxs n) -> In (permute p I) (idxs n).
Proof.
  intros NP HI. unfold nperm in NP. rewrite !andb_true_iff in NP. destruct NP as [[LP BP] _]. apply Nat.eqb_eq in LP. rewrite forallb_forall in BP.
  apply in_idxs in HI as [L B]. apply in_idxs. unfold permute. rewrite map_length. split; [exact LP|].
  intros x X. apply in_map_iff in X as (i & <- & Hi). apply B, nth_In. apply BP in Hi. apply Nat.ltb_lt in Hi. lia.
Qed.
Lemma rot_perm (U : field -> nat -> nat -> K) p (c : bool) (ts : list slot) (f : idx -> K) I : nperm p (List.length ts) = true -> perm_ok p (List.length ts) = true ->
  map (fun i => nth i ts (Fq, false)) p = (if c then map flip ts else ts) -> In I (idxs (List.length ts)) ->
  rot U ts f (permute p I) = cj c (rot U ts (fun J => cj c (f (permute p J))) I).
Proof.
  intros NP PO TP HI. unfold rot. fold (idxs (List.length ts)).
  rewrite <- (ksum_permute (fun J => rotprod U ts J (permute p I) * f J) p) by exact PO.
  transitivity (ksum (map (fun J => cj c (rotprod U ts J I * cj c (f (permute p J)))) (idxs (List.length ts)))).
  - apply ksum_ext. intros J HJ. rewrite (rotprod_perm U p c) by (try assumption; now apply idxs_length).
    destruct c; cbn [cj]; [|reflexivity]. now rewrite kconj_mul, kconj_conj.
  - destruct c; cbn [cj]; [|reflexivity]. now rewrite ksum_conj.
Qed.
Lemma rot_sym (U : field -> nat -> nat -> K) p (c : bool) (ts : list slot) (f : idx -> K) : nperm p (List.length ts) = true -> perm_ok p (List.length ts) = true ->
  map (fun i => nth i ts (Fq, false)) p = (if c then map flip ts else ts) ->
  (forall I, In I (idxs (List.length ts)) -> f I = cj c (f (permute p I))) ->
  forall I, In I (idxs (List.length ts)) -> rot U ts f I = cj c (rot U ts f (permute p I)).
Proof.
  intros NP PO TP SY I HI. rewrite (rot_perm U p c ts f I NP PO TP HI).
  assert (CC : forall z : K, cj c (cj c z) = z) by (intros z; destruct c; cbn [cj]; [apply kconj_conj|reflexivity]).
  rewrite CC. apply rot_ext. intros J HJ. now apply SY.
Qed.

Lemma rot_add (U : field -> nat -> nat -> K) ts (f g : idx -> K) I : rot U ts (fun J => f J + g J) I = rot U ts f I + rot U ts g I.
Proof. unfold rot. rewrite <- ksum_add. apply ksum_ext. intros. ring. Qed.
Lemma rot_zero (U : field -> nat -> nat -> K) ts I : rot U ts (fun _ => 0) I = 0.
Proof. unfold rot. apply ksum_zero. intros. ring. Qed.
Lemma in_idxs_4 I : In I (idxs 4) <-> exists i j k l, I = [i; j; k; l] /\ (i < 3)%nat /\ (j < 3)%nat /\ (k < 3)%nat /\ (l < 3)%nat.
Proof.
  split.
  - intros X. apply in_idxs in X as [L A]. destruct I as [|i [|j [|k [|l [|]]]]]; try discriminate.
    exists i, j, k, l. split; [reflexivity|]. repeat split; apply A; cbn; auto.
  - intros (i & j & k & l & -> & A & B & C & D). apply in_idxs. split; [reflexivity|]. intros x [<-|[<-|[<-|[<-|[]]]]]; assumption.
Qed.
Lemma rot_qqql (U : field -> nat -> nat -> K) (f : idx -> K) :
  (forall p r s t, In [p; r; s; t] (idxs 4) -> f [p; r; s; t] + f [r; p; s; t] = f [s; p; r; t] + f [s; r; p; t]) ->
  let F := rot U [pln Fq; pln Fq; pln Fq; pln Fl] f in
  forall p r s t, In [p; r; s; t] (idxs 4) -> F [p; r; s; t] + F [r; p; s; t] = F [s; p; r; t] + F [s; r; p; t].
Proof.
  intros REL F p r s t HI. set (ts := [pln Fq; pln Fq; pln Fq; pln Fl]) in *.
  assert (G : forall q, nperm q 4 = true -> perm_ok q 4 = true -> map (fun i => nth i ts (Fq, false)) q = ts ->
     F (permute q [p; r; s; t]) = rot U ts (fun J => f (permute q J)) [p; r; s; t]).
  { intros q A B C. exact (rot_perm U q false ts f [p; r; s; t] A B C HI). }
  pose proof (G [1; 0; 2; 3]%nat eq_refl eq_refl eq_refl) as G1. pose proof (G [2; 0; 1; 3]%nat eq_refl eq_refl eq_refl) as G2.
  pose proof (G [2; 1; 0; 3]%nat eq_refl eq_refl eq_refl) as G3. cbn [permute map nth] in G1, G2, G3. rewrite G1, G2, G3. unfold F.
  rewrite <- !rot_add. apply rot_ext. intros J HJ. apply (in_idxs_4 J) in HJ as (i & j & k & l & -> & A & B & C & D).
  cbn [map nth]. apply REL. apply in_idxs_4. eauto 10.
Qed.

(* ---------- what apply_rule computes ---------- *)
Definition slot_of (m : umat) : slot := match m with Pl f => pln f | Cj f => bar f end.
Definition rule_slots (r : rrule) : list slot :=
  match r with RCopy => [] | RMat a b => [slot_of a; slot_of b] | REin mj ml mi mk => [slot_of mi; slot_of mj; slot_of mk; slot_of ml] end.
Definition matf (U : field -> cval K) (f : field) (j i : nat) : K := entry (U f) [j; i].
Variable U : field -> cval K.
Hypothesis HU : forall f, vshape (U f) = [3; 3]%nat.
Lemma umat_rep m : rep (umat_val U m) 2 (fun J => rotf (matf U) (slot_of m) (nth 0 J 0%nat) (nth 1 J 0%nat)).
Proof.
  assert (R : forall f, rep (U f) 2 (fun J => entry (U f) [nth 0 J 0%nat; nth 1 J 0%nat])).
  { intros f. split; [apply HU|]. split; [discriminate|]. intros I HI. apply in_idxs_2 in HI as (i & j & -> & _). reflexivity. }
  destruct m as [f|f]; [exact (R f)|]. exact (rep_conj _ _ _ (R f)).
Qed.
Lemma ksum_idxs_1 (F : nat -> K) : ksum (map (fun s : idx => F (nth 0 s 0%nat)) (idxs 1)) = ksum (map F (seq 0 3)).
Proof. reflexivity. Qed.
Lemma apply_rule_spec r c (g : idx -> K) : rep c (List.length (rule_slots r)) g ->
  exists v, apply_rule U r c = Ok v /\ rep v (List.length (rule_slots r)) (rot (matf U) (rule_slots r) g).
Proof.
  intros RC. destruct r as [|a b|mj ml mi mk]; cbn [apply_rule rule_slots List.length] in *.
  - exists c. split; [reflexivity|]. apply (rep_ext _ _ _ _ RC). intros I [<-|[]]. unfold rot. cbn. unfold ksum. cbn. ring.
  - destruct (rep_matmul _ _ _ _ (rep_T _ _ (umat_rep a)) RC) as (x & -> & RX). cbn [bind].
    destruct (rep_matmul _ _ _ _ RX (umat_rep b)) as (y & -> & RY). exists y. split; [reflexivity|]. apply (rep_ext _ _ _ _ RY).
    intros I HI. apply in_idxs_2 in HI as (i & j & -> & Hi & Hj). cbn [nth]. unfold rot. cbn [List.length]. fold (idxs 2).
    rewrite !idxs_1. change (idxs 2) with [[0; 0]; [0; 1]; [0; 2]; [1; 0]; [1; 1]; [1; 2]; [2; 0]; [2; 1]; [2; 2]]%nat.
    cbn [map seq nth rotprod]. unfold ksum. cbn [fold_right map]. ring.
  - set (ins := [["j"; "b"]; ["l"; "d"]; ["i"; "a"]; ["k"; "c"]; ["i"; "j"; "k"; "l"]]%char).
    set (out := ["a"; "b"; "c"; "d"]%char).
    destruct (rep_einsum "jb,ld,ia,kc,ijkl->abcd" ins out
      [umat_val U mj; umat_val U ml; umat_val U mi; umat_val U mk; c]
      [_; _; _; _; g] eq_refl eq_refl (conj (umat_rep mj) (conj (umat_rep ml) (conj (umat_rep mi) (conj (umat_rep mk) (conj RC I)))))) as (v & -> & RV).
    exists v. split; [reflexivity|]. apply (rep_ext _ _ _ _ RV). intros O HO. apply in_idxs_4 in HO as (a & b & d & e & -> & A & B & D & E).
    unfold rot. cbn [List.length]. fold (idxs 4). change (List.length (summed_letters ins out)) with 4%nat.
    rewrite <- (ksum_permute (fun J => rotprod (matf U) [slot_of mi; slot_of mj; slot_of mk; slot_of ml] J [a; b; d; e] * g J) [2; 0; 3; 1]%nat 4 eq_refl).
    apply ksum_ext. intros J HJ. apply in_idxs_4 in HJ as (j & l & i & k & -> & _).
    cbn. ring.
Qed.
End Rot.
Arguments matf {K} U f j i.

Definition flat_rules (rules : list (list string * rrule)) : list (string * rrule) := flat_map (fun p => map (fun k => (k, snd p)) (fst p)) rules.
Section All.
Context {K : StarField}.
Notation cdict := (dict string (cval K)).
Variable U : field -> cval K.
Variable C_in : cdict.
Fixpoint rot_flat (l : list (string * rrule)) (C : cdict) : res cdict :=
  match l with
  | [] => Ok C
  | (k, r) :: l' => match dget C_in k with Some c => bind (apply_rule U r c) (fun v => rot_flat l' (dset C k v)) | None => rot_flat l' C end
  end.
Lemma rot_keys_flat r ks rest : forall C, bind (rot_keys U C_in r ks C) (rot_flat rest) = rot_flat (map (fun k => (k, r)) ks ++ rest) C.
Proof.
  induction ks as [|k ks IH]; intros C; [reflexivity|]. cbn [rot_keys map app rot_flat]. destruct (dget C_in k) as [c|]; [|apply IH].
  destruct (apply_rule U r c) as [v|]; [|reflexivity]. cbn [bind]. apply IH.
Qed.
Lemma rot_all_flat rules : forall C, rot_all U C_in rules C = rot_flat (flat_rules rules) C.
Proof.
  induction rules as [|[ks r] rules IH]; intros C; [reflexivity|]. cbn [rot_all flat_rules flat_map fst snd].
  rewrite <- rot_keys_flat. destruct (rot_keys U C_in r ks C) as [C'|]; [|reflexivity]. cbn [bind]. apply IH.
Qed.
Lemma rot_flat_spec l : (forall k r r', In (k, r) l -> In (k, r') l -> r = r') ->
  (forall k r c, In (k, r) l -> dget C_in k = Some c -> exists v, apply_rule U r c = Ok v) ->
  forall C, exists D, rot_flat l C = Ok D /\
    (forall k r, In (k, r) l -> match dget C_in k with Some c => exists v, apply_rule U r c = Ok v /\ dget D k = Some v | None => dget D k = dget C k end) /\
    (forall k, ~ In k (map fst l) -> dget D k = dget C k).
Proof.
  induction l as [|[k0 r0] l IH]; intros FU OK C.
  - exists C. split; [reflexivity|]. split; [intros k r []|auto].
  - cbn [rot_flat]. assert (FU' : forall k r r', In (k, r) l -> In (k, r') l -> r = r') by (intros; eapply FU; right; eassumption).
    assert (OK' : forall k r c, In (k, r) l -> dget C_in k = Some c -> exists v, apply_rule U r c = Ok v) by (intros; eapply OK; [right|]; eassumption).
    destruct (dget C_in k0) as [c0|] eqn:E0.
    + destruct (OK k0 r0 c0 (or_introl eq_refl) E0) as (v0 & EV). rewrite EV. cbn [bind].
      destruct (IH FU' OK' (dset C k0 v0)) as (D & ED & A & B). exists D. split; [exact ED|]. split.
      * intros k r [[= <- <-]|IN].
        -- rewrite E0. destruct (in_dec string_dec k0 (map fst l)) as [X|X].
           ++ apply in_map_iff in X as ([k1 r1] & EQ & X). cbn [fst] in EQ. subst k1. rewrite (FU k0 r0 r1 (or_introl eq_refl) (or_intror X)).
              specialize (A k0 r1 X). rewrite E0 in A. exact A.
           ++ exists v0. split; [exact EV|]. rewrite (B k0 X). apply dget_dset_eq.
        -- specialize (A k r IN). destruct (dget C_in k) as [c|] eqn:E1; [exact A|]. rewrite A. apply dget_dset_neq. congruence.
      * intros k NI. cbn [map fst] in NI. rewrite (B k) by (intros X; apply NI; now right). apply dget_dset_neq. intros ->. apply NI. now left.
    + destruct (IH FU' OK' C) as (D & ED & A & B). exists D. split; [exact ED|]. split.
      * intros k r [[= <- <-]|IN]; [|now apply A]. rewrite E0. destruct (in_dec string_dec k0 (map fst l)) as [X|X]; [|now apply B].
        apply in_map_iff in X as ([k1 r1] & EQ & X). cbn [fst] in EQ. subst k1. specialize (A k0 r1 X). now rewrite E0 in A.
      * intros k NI. apply B. intros X. apply NI. now right.
Qed.
End All.

Fixpoint nodupb (l : list string) : bool := match l with [] => true | x :: r => negb (kmem x r) && nodupb r end.
Lemma nodupb_sound l : nodupb l = true -> NoDup l.
Proof. induction l as [|x l IH]; intros H; constructor; cbn [nodupb] in H; apply andb_prop in H as [A B]; [|auto]. apply negb_true_iff in A. intros X. apply kmem_In in X. congruence. Qed.
Lemma NoDup_fun {A B} (l : list (A * B)) k b b' : NoDup (map fst l) -> In (k, b) l -> In (k, b') l -> b = b'.
Proof.
  induction l as [|[x y] l IH]; intros ND H1 H2; [destruct H1|]. cbn [map fst] in ND. inversion ND as [|? ? NI ND']; subst.
  destruct H1 as [[= <- <-]|H1], H2 as [[= E1]|H2]; subst; try reflexivity; try now apply IH.
  - exfalso. apply NI. apply in_map_iff. exists (x, b'). auto.
  - exfalso. apply NI. apply in_map_iff. exists (k, b). auto.
Qed.

Section Spec.
Context {K : StarField}.
Local Open Scope K_scope.
Notation cdict := (dict string (cval K)).
Definition frules : list (string * rrule) := flat_rules (tl (rot_rules [])).
Definition slots_dec : forall a b : list slot, {a = b} + {a <> b}.
Proof. do 3 decide equality. Defined.
Lemma frules_nodup : NoDup (map fst frules).
Proof. apply nodupb_sound. vm_compute. reflexivity. Qed.
Lemma frules_slots : forall k r, In (k, r) frules -> dget wc_fields k = Some (rule_slots r) /\ ~ In k bosonic.
Proof.
  assert (X : forallb (fun p => match dget wc_fields (fst p) with Some ts => if slots_dec ts (rule_slots (snd p)) then negb (kmem (fst p) bosonic) else false | None => false end) frules = true)
    by (vm_compute; reflexivity).
  rewrite forallb_forall in X. intros k r H. specialize (X (k, r) H). cbn [fst snd] in X. destruct (dget wc_fields k) as [ts|]; [|discriminate X].
  destruct (slots_dec ts (rule_slots r)) as [->|]; [|discriminate X]. split; [reflexivity|]. apply negb_true_iff in X. intros Y. apply kmem_In in Y. congruence.
Qed.
Lemma wc_cases k ts : dget wc_fields k = Some ts -> (In k bosonic /\ ts = []) \/ (~ In k bosonic /\ exists r, In (k, r) frules).
Proof.
  assert (X : forallb (fun p => if kmem (fst p) bosonic then match snd p with [] => true | _ => false end else kmem (fst p) (map fst frules)) wc_fields = true)
    by (vm_compute; reflexivity).
  rewrite forallb_forall in X. intros H. specialize (X (k, ts) (dget_In _ _ _ H)). cbn [fst snd] in X. destruct (kmem k bosonic) eqn:KB.
  - left. apply kmem_In in KB. destruct ts; [auto|discriminate X].
  - right. split; [intros Y; apply kmem_In in Y; congruence|]. apply kmem_In in X. apply in_map_iff in X as ([k' r] & EQ & X). cbn [fst] in EQ. subst k'. eauto.
Qed.
Lemma bosonic_wc k : In k bosonic -> dget wc_fields k = Some [].
Proof.
  assert (X : forallb (fun k => match dget wc_fields k with Some [] => true | _ => false end) bosonic = true) by (vm_compute; reflexivity).
  rewrite forallb_forall in X. intros H. specialize (X k H). destruct (dget wc_fields k) as [[|]|]; try discriminate X. reflexivity.
Qed.
Definition shaped_as (F : dict string (list slot)) (C : cdict) : Prop := forall k ts v, dget F k = Some ts -> dget C k = Some v ->
  vshape v = map (fun _ => 3%nat) ts /\ (ts = [] -> exists z, v = CNum z).
Lemma map_repeat3 (ts : list slot) : map (fun _ => 3%nat) ts = repeat 3%nat (List.length ts).
Proof. induction ts as [|t ts IH]; [reflexivity|]. cbn. now rewrite IH. Qed.
Lemma rot_flat_wf (U : field -> cval K) C_in l : forall C D, wfdict C -> rot_flat U C_in l C = Ok D -> wfdict D.
Proof.
  induction l as [|[k r] l IH]; intros C D W H; cbn [rot_flat] in H; [now injection H as <-|].
  destruct (dget C_in k) as [c|]; [|eauto]. destruct (apply_rule U r c) as [v|]; [|discriminate H]. cbn [bind] in H. apply IH in H; [exact H|now apply wf_dset].
Qed.
Lemma rot_flat_fields (F : dict string (list slot)) (l : list (string * rrule)) (U : field -> cval K) (C_in : cdict) :
  (forall k r, In (k, r) l -> dget F k = Some (rule_slots r)) -> (forall k r r', In (k, r) l -> In (k, r') l -> r = r') ->
  (forall k ts, dget F k = Some ts -> exists r, In (k, r) l) ->
  (forall f, vshape (U f) = [3; 3]%nat) -> shaped_as F C_in ->
  exists D, rot_flat U C_in l [] = Ok D /\ wfdict D /\
    (forall k ts v, dget F k = Some ts -> dget C_in k = Some v ->
       exists w, dget D k = Some w /\ rep w (List.length ts) (rot (matf U) ts (entry v))) /\
    (forall k, dget D k <> None <-> dget F k <> None /\ dget C_in k <> None).
Proof.
  intros SL FU ALL HU HS.
  assert (RP : forall k r c, In (k, r) l -> dget C_in k = Some c -> rep c (List.length (rule_slots r)) (entry c)).
  { intros k r c H E. destruct (HS k _ c (SL k r H) E) as [A B]. split; [now rewrite A, map_repeat3|]. split; [|reflexivity].
    intros L. apply B. now destruct (rule_slots r). }
  destruct (rot_flat_spec U C_in l FU) with (C := @nil (string * cval K)) as (D & ED & A & B).
  { intros k r c H E. destruct (apply_rule_spec U HU r c _ (RP k r c H E)) as (v & EV & _). eauto. }
  exists D. split; [exact ED|]. split; [apply (rot_flat_wf U C_in l [] D); [constructor|exact ED]|].
  split.
  - intros k ts v H E. destruct (ALL k ts H) as (r & IN). pose proof (SL k r IN) as S. assert (ts = rule_slots r) by congruence. subst ts.
    specialize (A k r IN). rewrite E in A. destruct A as (w & EW & GD). exists w. split; [exact GD|].
    destruct (apply_rule_spec U HU r v _ (RP k r v IN E)) as (w' & EW' & R). assert (w' = w) by congruence. now subst w'.
  - intros k. destruct (dget F k) as [ts|] eqn:W.
    + destruct (ALL k ts W) as (r & IN). specialize (A k r IN). destruct (dget C_in k) as [c|].
      * destruct A as (v & _ & ->). split; [split; discriminate|discriminate].
      * rewrite A. split; [intros X; now contradiction X|intros [_ X]; now contradiction X].
    + rewrite (B k). { split; [intros X; now contradiction X|intros [X _]; now contradiction X]. }
      intros X. apply in_map_iff in X as ([k' r] & EQ & X). cbn [fst] in EQ. subst k'. rewrite (SL k r X) in W. discriminate W.
Qed.
(* the rules for keys0 followed by fixed rules for other keys *)
Lemma rules_fun (keys0 : list string) (fr : list (string * rrule)) : NoDup (map fst fr) -> (forall k, In k keys0 <-> In k bosonic) ->
  (forall k r, In (k, r) fr -> ~ In k bosonic) ->
  forall k r r', In (k, r) (map (fun k => (k, RCopy)) keys0 ++ fr) -> In (k, r') (map (fun k => (k, RCopy)) keys0 ++ fr) -> r = r'.
Proof.
  intros ND HK NB k r r' H1 H2. apply in_app_or in H1, H2. destruct H1 as [H1|H1], H2 as [H2|H2].
  - apply in_map_iff in H1 as (? & [= _ <-] & _). apply in_map_iff in H2 as (? & [= _ <-] & _). reflexivity.
  - apply in_map_iff in H1 as (? & [= -> <-] & H1). apply HK in H1. apply NB in H2. contradiction.
  - apply in_map_iff in H2 as (? & [= -> <-] & H2). apply HK in H2. apply NB in H1. contradiction.
  - exact (NoDup_fun _ _ _ _ ND H1 H2).
Qed.
Lemma flavor_rotation_spec (U : field -> cval K) keys0 (C_in : cdict) :
  (forall f, vshape (U f) = [3; 3]%nat) -> (forall k, In k keys0 <-> In k bosonic) -> shaped_as wc_fields C_in ->
  exists D, flavor_rotation U keys0 C_in = Ok D /\ wfdict D /\
    (forall k ts v, dget wc_fields k = Some ts -> dget C_in k = Some v ->
       exists w, dget D k = Some w /\ rep w (List.length ts) (rot (matf U) ts (entry v))) /\
    (forall k, dget D k <> None <-> dget wc_fields k <> None /\ dget C_in k <> None).
Proof.
  intros HU HK HS. unfold flavor_rotation. rewrite rot_all_flat.
  change (flat_rules (rot_rules keys0)) with (map (fun k => (k, RCopy)) keys0 ++ frules).
  apply rot_flat_fields; [| | |exact HU|exact HS].
  - intros k r H. apply in_app_or in H as [H|H]; [|now apply frules_slots].
    apply in_map_iff in H as (x & [= -> <-] & H). apply bosonic_wc. now apply HK.
  - apply rules_fun; [exact frules_nodup|exact HK|]. intros k r H. now apply frules_slots in H.
  - intros k ts H. destruct (wc_cases k ts H) as [[X _]|[_ (r & X)]].
    + exists RCopy. apply in_or_app. left. apply in_map_iff. exists k. split; [reflexivity|]. now apply HK.
    + exists r. apply in_or_app. now right.
Qed.

(* SMEFT._flavor_rotation *)
Definition srules (sm : bool) : list (string * rrule) := (if sm then flat_rules sm_rot_rules else []) ++ flat_rules (tl (smeft_rot_rules [])).
Definition sfields (sm : bool) : dict string (list slot) := if sm then op_fields else wc_fields.
Lemma srules_nodup sm : NoDup (map fst (srules sm)).
Proof. apply nodupb_sound. destruct sm; vm_compute; reflexivity. Qed.
Lemma srules_slots sm : forall k r, In (k, r) (srules sm) -> dget (sfields sm) k = Some (rule_slots r) /\ ~ In k bosonic.
Proof.
  assert (X : forallb (fun p => match dget (sfields sm) (fst p) with Some ts => if slots_dec ts (rule_slots (snd p)) then negb (kmem (fst p) bosonic) else false | None => false end) (srules sm) = true)
    by (destruct sm; vm_compute; reflexivity).
  rewrite forallb_forall in X. intros k r H. specialize (X (k, r) H). cbn [fst snd] in X. destruct (dget (sfields sm) k) as [ts|]; [|discriminate X].
  destruct (slots_dec ts (rule_slots r)) as [->|]; [|discriminate X]. split; [reflexivity|]. apply negb_true_iff in X. intros Y. apply kmem_In in Y. congruence.
Qed.
Lemma sfields_cases sm k ts : dget (sfields sm) k = Some ts -> In k bosonic \/ exists r, In (k, r) (srules sm).
Proof.
  assert (X : forallb (fun p => kmem (fst p) bosonic || kmem (fst p) (map fst (srules sm))) (sfields sm) = true) by (destruct sm; vm_compute; reflexivity).
  rewrite forallb_forall in X. intros H. specialize (X (k, ts) (dget_In _ _ _ H)). cbn [fst snd] in X. apply orb_prop in X as [X|X]; apply kmem_In in X.
  - now left.
  - right. apply in_map_iff in X as ([k' r] & EQ & X). cbn [fst] in EQ. subst k'. eauto.
Qed.
Lemma bosonic_sfields sm k : In k bosonic -> dget (sfields sm) k = Some [].
Proof.
  assert (X : forallb (fun k => match dget (sfields sm) k with Some [] => true | _ => false end) bosonic = true) by (destruct sm; vm_compute; reflexivity).
  rewrite forallb_forall in X. intros H. specialize (X k H). destruct (dget (sfields sm) k) as [[|]|]; try discriminate X. reflexivity.
Qed.
Lemma strict_keys (U : field -> cval K) C_in r ks : (forall k, In k ks -> dget C_in k <> None) -> forall C, rot_keys_strict U C_in r ks C = rot_keys U C_in r ks C.
Proof.
  induction ks as [|k ks IH]; intros H C; [reflexivity|]. cbn [rot_keys_strict rot_keys]. destruct (dget C_in k) as [c|] eqn:E; [|exfalso; exact (H k (or_introl eq_refl) E)].
  destruct (apply_rule U r c); [|reflexivity]. cbn [bind]. apply IH. intros k' X. apply H. now right.
Qed.
Lemma strict_all (U : field -> cval K) C_in rules : (forall k, In k (map fst (flat_rules rules)) -> dget C_in k <> None) ->
  forall C, rot_all_strict U C_in rules C = rot_all U C_in rules C.
Proof.
  induction rules as [|[ks r] rules IH]; intros H C; [reflexivity|]. cbn [rot_all_strict rot_all].
  cbn [flat_rules flat_map fst snd] in H. rewrite map_app, map_map in H. cbn [fst] in H. rewrite map_id in H.
  rewrite strict_keys by (intros k X; apply H, in_or_app; now left). destruct (rot_keys U C_in r ks C); [|reflexivity]. cbn [bind].
  apply IH. intros k X. apply H, in_or_app. now right.
Qed.
Lemma flat_rules_app a b : flat_rules (a ++ b) = flat_rules a ++ flat_rules b.
Proof. unfold flat_rules. apply flat_map_app. Qed.
Lemma rot_flat_comm_in {A} (a b c : list A) x : In x (a ++ b ++ c) <-> In x (b ++ a ++ c).
Proof. rewrite !in_app_iff. tauto. Qed.
Lemma smeft_rotation_spec (U : field -> cval K) keys0 sm (C_in : cdict) :
  (forall f, vshape (U f) = [3; 3]%nat) -> (forall k, In k keys0 <-> In k bosonic) -> shaped_as (sfields sm) C_in ->
  (forall k, dget (sfields sm) k <> None -> dget C_in k <> None) ->
  exists D, smeft_flavor_rotation U keys0 sm C_in = Ok D /\ wfdict D /\
    (forall k ts v, dget (sfields sm) k = Some ts -> dget C_in k = Some v ->
       exists w, dget D k = Some w /\ rep w (List.length ts) (rot (matf U) ts (entry v))) /\
    (forall k, dget D k <> None <-> dget (sfields sm) k <> None /\ dget C_in k <> None).
Proof.
  intros HU HK HS PR. unfold smeft_flavor_rotation.
  set (rules := (if sm then sm_rot_rules else []) ++ smeft_rot_rules keys0).
  assert (FL : flat_rules rules = (if sm then flat_rules sm_rot_rules else []) ++ map (fun k => (k, RCopy)) keys0 ++ flat_rules (tl (smeft_rot_rules [])))
    by (unfold rules; rewrite flat_rules_app; destruct sm; reflexivity).
  assert (EQV : forall x, In x (flat_rules rules) <-> In x (map (fun k => (k, RCopy)) keys0 ++ srules sm)).
  { intros x. rewrite FL. apply rot_flat_comm_in. }
  assert (SL : forall k r, In (k, r) (flat_rules rules) -> dget (sfields sm) k = Some (rule_slots r)).
  { intros k r H. apply EQV, in_app_or in H as [H|H]; [|now apply srules_slots].
    apply in_map_iff in H as (x & [= -> <-] & H). apply bosonic_sfields. now apply HK. }
  rewrite strict_all, rot_all_flat.
  - apply rot_flat_fields; [exact SL| | |exact HU|exact HS].
    + intros k r r' H1 H2. apply EQV in H1, H2. revert H1 H2. apply rules_fun; [apply srules_nodup|exact HK|]. intros. now apply (srules_slots sm k0 r0).
    + intros k ts H. destruct (sfields_cases sm k ts H) as [X|(r & X)].
      * exists RCopy. apply EQV, in_or_app. left. apply in_map_iff. exists k. split; [reflexivity|]. now apply HK.
      * exists r. apply EQV, in_or_app. now right.
  - intros k X. apply in_map_iff in X as ([k' r] & EQ & X). cbn [fst] in EQ. subst k'. apply PR. rewrite (SL k r X). discriminate.
Qed.
End Spec.
