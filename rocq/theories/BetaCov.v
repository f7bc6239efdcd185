(* Well-typed monomials are covariant under flavour rotations. *)
From Coq Require Import List Bool ZArith QArith Arith Lia String Ascii.
From Verif Require Import PyBase Num SymModel EftModel EftProofs NpModel NpProofs BetaModel BetaNorm BetaSpec BetaSound.
Import ListNotations.
Local Open Scope list_scope.

Lemma field_dec (a b : field) : {a = b} + {a <> b}. Proof. decide equality. Defined.
Definition slot_eqb (a b : slot) : bool := (if field_dec (fst a) (fst b) then true else false) && Bool.eqb (snd a) (snd b).
Lemma slot_eqb_spec a b : reflect (a = b) (slot_eqb a b).
Proof.
  destruct a as [f x], b as [g y]. unfold slot_eqb. cbn [fst snd].
  destruct (field_dec f g), (bool_eqb_spec x y); simpl; constructor; congruence.
Qed.
#[global] Instance EqKey_slot : EqKey slot := {| keqb := slot_eqb; keqb_spec := slot_eqb_spec |}.
Definition flip (t : slot) : slot := (fst t, negb (snd t)).

(* ---------- the type checker ---------- *)
Definition fac_slots (ts : list slot) (f : fac) : option (list slot) :=
  match f with
  | (FC k, c, _) => match dget op_fields k with Some t => Some (if c then map flip t else t) | None => None end
  | (FI3, _, [a; b]) =>
      match nth_error ts a with
      | Some t => Some [t; flip t]
      | None => match nth_error ts b with Some t => Some [flip t; t] | None => None end
      end
  | (FI3, _, _) => None
  | (_, _, _) => Some []
  end.
Fixpoint facs_slots (ts : list slot) (fs : list fac) : option (list (nat * slot)) :=
  match fs with
  | [] => Some []
  | f :: fs' => obind (fac_slots ts f) (fun t =>
      if Nat.eqb (List.length t) (List.length (snd f)) then
        obind (facs_slots ts fs') (fun r => Some (combine (snd f) t ++ r))
      else None)
  end.
Definition at_letter (l : nat) (Sl : list (nat * slot)) : list slot := map snd (filter (fun p => Nat.eqb l (fst p)) Sl).
Definition letter_ok (ts : list slot) (Sl : list (nat * slot)) (l : nat) : bool :=
  match nth_error ts l with
  | Some t => keqb (at_letter l Sl) [t]
  | None => match at_letter l Sl with [a; b] => keqb b (flip a) | _ => false end
  end.
Definition mono_typed (ts : list slot) (m : mono) : bool :=
  match facs_slots ts (m_f m) with
  | None => false
  | Some Sl => forallb (letter_ok ts Sl) (seq 0 (List.length ts + m_b m)) &&
              forallb (fun p => fst p <? List.length ts + m_b m)%nat Sl
  end.
Definition n_typed (ts : list slot) (n : nform) : bool := Nat.eqb (fst n) (List.length ts) && forallb (mono_typed ts) (snd n).

Section Cov.
Context {K : StarField}.
Local Open Scope K_scope.
Add Field KFbc : (k_field K).
Variable U : field -> nat -> nat -> K.
Hypothesis HU : forall f, unitary3 (U f).
Notation R := (rotf U).

Lemma delta_refl i : delta i i = (1 : K).
Proof. unfold delta. now rewrite Nat.eqb_refl. Qed.
Lemma delta_neq i j : i <> j -> delta i j = (0 : K).
Proof. unfold delta. destruct (Nat.eqb_spec i j); congruence. Qed.
Lemma delta_sym i j : delta i j = delta j i :> K.
Proof. unfold delta. now rewrite Nat.eqb_sym. Qed.
Lemma sum_delta (f : nat -> K) i n s : (s <= i < s + n)%nat -> ksum (map (fun v => delta v i * f v) (seq s n)) = f i.
Proof.
  revert s; induction n as [|n IH]; intros s B; [lia|]. cbn [seq map]. rewrite ksum_cons.
  destruct (Nat.eq_dec s i) as [->|N].
  - rewrite delta_refl. rewrite ksum_zero; [ring|]. intros x X. apply in_seq in X. rewrite delta_neq by lia. ring.
  - rewrite delta_neq by exact N. rewrite IH by lia. ring.
Qed.

(* unitarity in the two forms that are needed *)
Lemma R_contract a i j : (i < 3)%nat -> (j < 3)%nat -> ksum (map (fun v => R a i v * R (flip a) j v) (seq 0 3)) = delta i j.
Proof.
  intros Hi Hj. destruct (HU (fst a) i j Hi Hj) as [_ E]. destruct a as [f c]. unfold rotf, flip. cbn [fst snd] in *.
  destruct c; cbn [negb]; [|exact E]. destruct (HU f j i Hj Hi) as [_ E']. rewrite delta_sym, <- E'.
  apply ksum_ext. intros v _. ring.
Qed.
Lemma R_unit a i j : (i < 3)%nat -> (j < 3)%nat -> ksum (map (fun v => R a v i * R (flip a) v j) (seq 0 3)) = delta i j.
Proof.
  intros Hi Hj. destruct (HU (fst a) i j Hi Hj) as [E _]. destruct a as [f c]. unfold rotf, flip. cbn [fst snd] in *.
  destruct c; cbn [negb]; [exact E|]. destruct (HU f j i Hj Hi) as [E' _]. rewrite delta_sym, <- E'.
  apply ksum_ext. intros v _. ring.
Qed.
Lemma R_flip a i j : R (flip a) i j = (R a i j)^*.
Proof. destruct a as [f c]. unfold rotf, flip. cbn [fst snd]. destruct c; cbn [negb]; [now rewrite kconj_conj|reflexivity]. Qed.

(* ---------- products over letters ---------- *)
Fixpoint prodz (es : list (nat -> K)) (z : idx) : K :=
  match es, z with e :: es', v :: z' => e v * prodz es' z' | _, _ => 1 end.
Lemma sum_prodz es : ksum (map (prodz es) (idxs (List.length es))) = kprod (map (fun e => ksum (map e (seq 0 3))) es).
Proof.
  induction es as [|e es IH]; [unfold ksum, kprod; cbn; ring|].
  cbn [List.length map]. rewrite kprod_cons, <- IH, idxs_S, ksum_flat_map. change [0;1;2]%nat with (seq 0 3).
  rewrite <- ksum_scale_r. apply ksum_ext. intros v _. rewrite map_map. cbn [prodz]. exact (ksum_scale _ (prodz es) _).
Qed.
Lemma prodz_seq (h : nat -> nat -> K) n : forall s z, List.length z = n ->
  prodz (map h (seq s n)) z = kprod (map (fun l => h l (nth (l - s) z 0%nat)) (seq s n)).
Proof.
  induction n as [|n IH]; intros s [|v z] L; try discriminate; [reflexivity|].
  cbn [seq map prodz]. rewrite kprod_cons, Nat.sub_diag. cbn [nth]. f_equal. rewrite IH by (cbn in L; lia).
  apply kprod_ext. intros l X. apply in_seq in X. f_equal. replace (l - s)%nat with (Datatypes.S (l - Datatypes.S s)) by lia. reflexivity.
Qed.
Lemma kprod_pull {A} (g : A -> K) (P : nat -> A -> bool) (a : A) (rest : nat -> K) l0 ls : NoDup ls -> In l0 ls ->
  (forall l, In l ls -> P l a = Nat.eqb l l0) ->
  kprod (map (fun l => (if P l a then g a * rest l else rest l)) ls) = g a * kprod (map rest ls).
Proof.
  induction ls as [|l ls IH]; intros ND IN HP; [destruct IN|]. inversion ND as [|? ? NI ND']; subst.
  cbn [map]. rewrite !kprod_cons, HP by (now left). destruct (Nat.eqb_spec l l0) as [->|N].
  - rewrite (kprod_ext (fun l => if P l a then g a * rest l else rest l) rest); [ring|].
    intros x X. rewrite HP by (now right). destruct (Nat.eqb_spec x l0); [congruence|reflexivity].
  - rewrite IH; auto; [ring|destruct IN; congruence|]. intros x X. apply HP. now right.
Qed.
(* group a product over slots by letters *)
Lemma group_prod {A} (let_of : A -> nat) (g : A -> K) n (Sl : list A) : (forall a, In a Sl -> (let_of a < n)%nat) ->
  kprod (map g Sl) = kprod (map (fun l => kprod (map g (filter (fun a => Nat.eqb l (let_of a)) Sl))) (seq 0 n)).
Proof.
  induction Sl as [|a Sl IH]; intros B.
  - cbn. assert (E : forall ls : list nat, kprod (map (fun _ => kprod (@nil K)) ls) = 1).
    { induction ls as [|x ls IL]; [reflexivity|]. cbn [map]. rewrite kprod_cons, IL. unfold kprod. cbn. ring. }
    now rewrite E.
  - cbn [map]. rewrite kprod_cons, IH by (intros x X; apply B; now right).
    rewrite <- (kprod_pull g (fun l a => Nat.eqb l (let_of a)) a
      (fun l => kprod (map g (filter (fun a0 => Nat.eqb l (let_of a0)) Sl))) (let_of a) (seq 0 n)).
    + apply kprod_ext. intros l _. cbn [filter]. destruct (Nat.eqb l (let_of a)); [|reflexivity]. cbn [map]. now rewrite kprod_cons.
    + apply seq_NoDup.
    + apply in_seq. specialize (B a (or_introl eq_refl)). lia.
    + reflexivity.
Qed.
(* the sum over all values of all letters factorizes *)
Lemma sum_letters {A} (let_of : A -> nat) (g : A -> nat -> K) (e : nat -> nat -> K) n (Sl : list A) :
  (forall a, In a Sl -> (let_of a < n)%nat) ->
  ksum (map (fun z => kprod (map (fun l => e l (nth l z 0%nat)) (seq 0 n)) * kprod (map (fun a => g a (nth (let_of a) z 0%nat)) Sl)) (idxs n)) =
  kprod (map (fun l => ksum (map (fun v => e l v * kprod (map (fun a => g a v) (filter (fun a => Nat.eqb l (let_of a)) Sl))) (seq 0 3))) (seq 0 n)).
Proof.
  intros B.
  set (h := fun l v => e l v * kprod (map (fun a => g a v) (filter (fun a => Nat.eqb l (let_of a)) Sl))).
  transitivity (ksum (map (prodz (map h (seq 0 n))) (idxs n))).
  - apply ksum_ext. intros z Hz. apply idxs_length in Hz. rewrite (prodz_seq h n 0 z Hz).
    rewrite (group_prod let_of (fun a => g a (nth (let_of a) z 0%nat)) n Sl B), <- kprod_mul.
    apply kprod_ext. intros l _. rewrite Nat.sub_0_r. unfold h. f_equal. f_equal. apply map_ext_in.
    intros a X. apply filter_In in X as [_ X]. apply Nat.eqb_eq in X. now subst.
  - pose proof (sum_prodz (map h (seq 0 n))) as E. rewrite map_length, seq_length, map_map in E. exact E.
Qed.

Fixpoint dprod (J I : idx) : K := match J, I with j :: J', i :: I' => delta j i * dprod J' I' | _, _ => 1 end.
Lemma sum_dprod (f : idx -> K) I : forall n, In I (idxs n) -> ksum (map (fun J => dprod J I * f J) (idxs n)) = f I.
Proof.
  intros n. revert I f. induction n as [|n IH]; intros I f HI.
  - destruct HI as [<-|[]]. cbn. unfold ksum. cbn. ring.
  - rewrite idxs_S in HI. apply in_flat_map in HI as (i & Hi & HI). apply in_map_iff in HI as (I' & <- & HI').
    rewrite idxs_S, ksum_flat_map.
    transitivity (ksum (map (fun v => delta v i * f (v :: I')) (seq 0 3))).
    + change [0;1;2]%nat with (seq 0 3). apply ksum_ext. intros v _. rewrite map_map. cbn [dprod].
      rewrite (ksum_ext _ (fun x => delta v i * (dprod x I' * f (v :: x)))) by (intros; ring).
      rewrite ksum_scale. f_equal. exact (IH I' (fun x => f (v :: x)) HI').
    + apply (sum_delta (fun v => f (v :: I'))). change [0;1;2]%nat with (seq 0 3) in Hi. apply in_seq in Hi. lia.
Qed.
Lemma rotprod_app ts us J J' I I' : List.length J = List.length ts -> List.length I = List.length ts ->
  rotprod U (ts ++ us) (J ++ J') (I ++ I') = rotprod U ts J I * rotprod U us J' I'.
Proof.
  revert J I; induction ts as [|t ts IH]; intros [|j J] [|i I] LJ LI; try discriminate; cbn [app rotprod]; [ring|].
  rewrite IH by (cbn in *; lia). ring.
Qed.

(* ---------- a product of factors ---------- *)
Section Facs.
Variables V V' : fname -> idx -> K.
Definition fval0 (W : fname -> idx -> K) (f : fac) (J : idx) : K := if snd (fst f) then (W (fst (fst f)) J)^* else W (fst (fst f)) J.
Fixpoint gprod (W : fname -> idx -> K) (fs : list fac) (y : idx) : K :=
  match fs with
  | [] => 1
  | f :: fs' => fval0 W f (firstn (List.length (snd f)) y) * gprod W fs' (skipn (List.length (snd f)) y)
  end.
Definition letters (fs : list fac) : list nat := List.concat (map snd fs).
Lemma gprod_val W z fs : kprod (map (fval W z) fs) = gprod W fs (map (fun l => nth l z 0%nat) (letters fs)).
Proof.
  induction fs as [|f fs IH]; [reflexivity|]. cbn [map gprod letters List.concat]. rewrite kprod_cons, IH.
  rewrite map_app, <- (map_length (fun l => nth l z 0%nat) (snd f)).
  rewrite firstn_app, firstn_all, Nat.sub_diag, firstn_O, app_nil_r.
  rewrite skipn_app, skipn_all, Nat.sub_diag. reflexivity.
Qed.

(* the law of each factor *)
Definition law (ts : list slot) (f : fac) (t : list slot) : Prop :=
  forall I, In I (idxs (List.length t)) -> fval0 V' f I = ksum (map (fun J => rotprod U t J I * fval0 V f J) (idxs (List.length t))).

Lemma facs_slots_letters ts fs : forall Sl, facs_slots ts fs = Some Sl -> map fst Sl = letters fs.
Proof.
  induction fs as [|f fs IH]; intros Sl E; cbn [facs_slots] in E; [injection E as <-; reflexivity|].
  destruct (fac_slots ts f) as [t|]; [|discriminate]. cbn [obind] in E.
  destruct (Nat.eqb_spec (List.length t) (List.length (snd f))) as [L|]; [|discriminate].
  destruct (facs_slots ts fs) as [r|]; [|discriminate]. injection E as <-.
  rewrite map_app, (IH r eq_refl). unfold letters. cbn [map List.concat]. f_equal.
  clear -L. revert t L; induction (snd f) as [|x l IL]; intros [|y t] L; try discriminate; [reflexivity|].
  cbn. f_equal. apply IL. cbn in L. lia.
Qed.
Lemma map_snd_combine {A B} (a : list A) (b : list B) : List.length b = List.length a -> map snd (combine a b) = b.
Proof. revert b; induction a as [|x a IH]; intros [|y b] L; try discriminate; [reflexivity|]. cbn. f_equal. apply IH. cbn in L. lia. Qed.

Lemma gprod_rot ts fs : forall Sl, facs_slots ts fs = Some Sl ->
  (forall f t, In f fs -> fac_slots ts f = Some t -> law ts f t) ->
  forall x, In x (idxs (List.length Sl)) ->
  gprod V' fs x = ksum (map (fun y => rotprod U (map snd Sl) y x * gprod V fs y) (idxs (List.length Sl))).
Proof.
  induction fs as [|f fs IH]; intros Sl E LW x Hx; cbn [facs_slots] in E.
  - injection E as <-. cbn. unfold ksum. cbn. ring.
  - destruct (fac_slots ts f) as [t|] eqn:Ef; [|discriminate]. cbn [obind] in E.
    destruct (Nat.eqb_spec (List.length t) (List.length (snd f))) as [L|]; [|discriminate].
    destruct (facs_slots ts fs) as [r|] eqn:Er; [|discriminate]. injection E as <-.
    assert (LC : List.length (combine (snd f) t) = List.length t) by (rewrite combine_length; lia).
    rewrite app_length, LC in Hx |- *. apply in_idxs_app in Hx as (x1 & x2 & -> & H1 & H2).
    assert (F1 : forall a b : idx, List.length a = List.length t -> firstn (List.length (snd f)) (a ++ b) = a).
    { intros a b La. rewrite <- L, <- La, firstn_app, firstn_all, Nat.sub_diag, firstn_O. apply app_nil_r. }
    assert (F2 : forall a b : idx, List.length a = List.length t -> skipn (List.length (snd f)) (a ++ b) = b).
    { intros a b La. rewrite <- L, <- La, skipn_app, skipn_all, Nat.sub_diag. reflexivity. }
    pose proof (idxs_length _ _ H1) as L1. cbn [gprod]. rewrite F1, F2 by exact L1.
    rewrite (IH r eq_refl) with (x := x2); [|intros; apply LW; [now right|assumption]|exact H2].
    rewrite (LW f t (or_introl eq_refl) Ef x1 H1), ksum_mul_ksum, ksum_idxs_app.
    apply ksum_ext. intros y1 Hy1. apply ksum_ext. intros y2 Hy2. apply idxs_length in Hy1.
    rewrite F1, F2 by exact Hy1. rewrite map_app, map_snd_combine by exact L. rewrite rotprod_app by assumption. ring.
Qed.
End Facs.

(* ---------- one monomial ---------- *)
Definition sval (Sl : list (nat * slot)) (y : idx) : list (nat * (slot * nat)) :=
  combine (map fst Sl) (combine (map snd Sl) y).
Lemma rotprod_slots Sl : forall y z, List.length y = List.length Sl ->
  rotprod U (map snd Sl) y (map (fun l => nth l z 0%nat) (map fst Sl)) =
  kprod (map (fun a => R (fst (snd a)) (snd (snd a)) (nth (fst a) z 0%nat)) (sval Sl y)).
Proof.
  induction Sl as [|[l t] Sl IH]; intros [|v y] z L; try discriminate; [reflexivity|].
  cbn. rewrite IH by (cbn in L; lia). reflexivity.
Qed.
Lemma dprod_slots Sl : forall y z, List.length y = List.length Sl ->
  dprod y (map (fun l => nth l z 0%nat) (map fst Sl)) =
  kprod (map (fun a => delta (snd (snd a)) (nth (fst a) z 0%nat)) (sval Sl y)).
Proof.
  induction Sl as [|[l t] Sl IH]; intros [|v y] z L; try discriminate; [reflexivity|].
  cbn. rewrite IH by (cbn in L; lia). reflexivity.
Qed.
Lemma sval_letters Sl : forall y a, List.length y = List.length Sl -> In a (sval Sl y) -> In (fst a) (map fst Sl).
Proof.
  induction Sl as [|[l t] Sl IH]; intros [|v y] a L IN; try discriminate; [destruct IN|].
  destruct IN as [<-|IN]; [now left|]. right. apply (IH y); [cbn in L; lia|exact IN].
Qed.
Lemma sval_range Sl : forall y a, In a (sval Sl y) -> In (snd (snd a)) y.
Proof.
  induction Sl as [|[l t] Sl IH]; intros [|v y] a IN; try destruct IN.
  - subst a. now left.
  - right. now apply IH.
Qed.
Lemma sval_at Sl l : forall y, List.length y = List.length Sl ->
  map (fun a => fst (snd a)) (filter (fun a => Nat.eqb l (fst a)) (sval Sl y)) = at_letter l Sl.
Proof.
  unfold at_letter. induction Sl as [|[k t] Sl IH]; intros [|v y] L; try discriminate; [reflexivity|].
  cbn. change (combine (map fst Sl) (combine (map snd Sl) y)) with (sval Sl y).
  destruct (Nat.eqb l k); cbn; rewrite <- (IH y) by (cbn in L; lia); reflexivity.
Qed.
Lemma rotprod_seq ts J I : List.length J = List.length ts -> List.length I = List.length ts ->
  rotprod U ts J I = kprod (map (fun l => match nth_error ts l with Some t => R t (nth l J 0%nat) (nth l I 0%nat) | None => 1 end) (seq 0 (List.length ts))).
Proof.
  revert J I; induction ts as [|t ts IH]; intros [|j J] [|i I] LJ LI; try discriminate; [reflexivity|].
  cbn [rotprod List.length seq map]. rewrite kprod_cons. cbn [nth_error nth]. f_equal.
  rewrite IH by (cbn in *; lia). rewrite <- seq_shift, map_map. reflexivity.
Qed.
Lemma dprod_seq J I : List.length I = List.length J ->
  dprod J I = kprod (map (fun l => delta (nth l J 0%nat) (nth l I 0%nat)) (seq 0 (List.length J))).
Proof.
  revert I; induction J as [|j J IH]; intros [|i I] L; try discriminate; [reflexivity|].
  cbn [dprod List.length seq map]. rewrite kprod_cons. cbn [nth]. f_equal.
  rewrite IH by (cbn in *; lia). rewrite <- seq_shift, map_map. reflexivity.
Qed.
Lemma kprod_ones (ls : list nat) (f : nat -> K) : (forall l, In l ls -> f l = 1) -> kprod (map f ls) = 1.
Proof.
  induction ls as [|l ls IH]; intros E; [reflexivity|]. cbn [map]. rewrite kprod_cons, E, IH; [ring| |now left].
  intros x X. apply E. now right.
Qed.
Lemma seq_split_prod (f : nat -> K) r b : kprod (map f (seq 0 (r + b))) = kprod (map f (seq 0 r)) * kprod (map f (seq r b)).
Proof. rewrite seq_app, map_app, kprod_app. reflexivity. Qed.

(* the two ways of transporting the rotation through the contractions agree *)
Lemma contraction ts Sl b y I : List.length y = List.length Sl -> (forall v, In v y -> (v < 3)%nat) ->
  In I (idxs (List.length ts)) ->
  forallb (letter_ok ts Sl) (seq 0 (List.length ts + b)) = true ->
  forallb (fun p => fst p <? List.length ts + b)%nat Sl = true ->
  ksum (map (fun x => rotprod U (map snd Sl) y (map (fun l => nth l (I ++ x) 0%nat) (map fst Sl))) (idxs b)) =
  ksum (map (fun J => ksum (map (fun x => rotprod U ts J I * dprod y (map (fun l => nth l (J ++ x) 0%nat) (map fst Sl))) (idxs b)))
            (idxs (List.length ts))).
Proof.
  intros LY RY HI OK BD. set (r := List.length ts) in *.
  assert (LI : List.length I = r) by (now apply idxs_length in HI).
  assert (SB : forall a, In a (sval Sl y) -> (fst a < r + b)%nat).
  { intros a IN. apply sval_letters in IN; [|exact LY]. rewrite forallb_forall in BD. apply in_map_iff in IN as (p & <- & IN).
    specialize (BD p IN). now apply Nat.ltb_lt in BD. }
  (* left hand side *)
  transitivity (ksum (map (fun z => kprod (map (fun l => (if (l <? r)%nat then delta (nth l z 0%nat) (nth l I 0%nat) else 1)) (seq 0 (r + b))) *
      kprod (map (fun a => R (fst (snd a)) (snd (snd a)) (nth (fst a) z 0%nat)) (sval Sl y))) (idxs (r + b)))).
  { rewrite ksum_idxs_app.
    rewrite <- (sum_dprod (fun J => ksum (map (fun x => rotprod U (map snd Sl) y (map (fun l => nth l (J ++ x) 0%nat) (map fst Sl))) (idxs b))) I r HI).
    apply ksum_ext. intros J HJ. apply idxs_length in HJ. rewrite <- ksum_scale. apply ksum_ext. intros x Hx.
    rewrite (rotprod_slots Sl y (J ++ x) LY). f_equal.
    rewrite seq_split_prod. rewrite (kprod_ones (seq r b)).
    2:{ intros l Hl. apply in_seq in Hl. destruct (Nat.ltb_spec l r); [lia|reflexivity]. }
    rewrite dprod_seq by congruence. rewrite HJ.
    rewrite (kprod_ext (fun l => if (l <? r)%nat then delta (nth l (J ++ x) 0%nat) (nth l I 0%nat) else 1)
       (fun l => delta (nth l J 0%nat) (nth l I 0%nat)) (seq 0 r)); [ring|].
    intros l Hl. apply in_seq in Hl. destruct (Nat.ltb_spec l r); [|lia]. now rewrite app_nth1 by lia. }
  rewrite (sum_letters (fun a : nat * (slot * nat) => fst a) (fun a v => R (fst (snd a)) (snd (snd a)) v)
     (fun l v => if (l <? r)%nat then delta v (nth l I 0%nat) else 1) (r + b) (sval Sl y) SB).
  (* right hand side *)
  symmetry.
  transitivity (ksum (map (fun z => kprod (map (fun l => match nth_error ts l with Some t => R t (nth l z 0%nat) (nth l I 0%nat) | None => 1 end) (seq 0 (r + b))) *
      kprod (map (fun a => delta (snd (snd a)) (nth (fst a) z 0%nat)) (sval Sl y))) (idxs (r + b)))).
  { rewrite ksum_idxs_app. apply ksum_ext. intros J HJ. apply idxs_length in HJ. apply ksum_ext. intros x Hx.
    rewrite (dprod_slots Sl y (J ++ x) LY). f_equal.
    rewrite seq_split_prod. rewrite (kprod_ones (seq r b)).
    2:{ intros l Hl. apply in_seq in Hl. assert (N : nth_error ts l = None) by (apply nth_error_None; fold r; lia). now rewrite N. }
    rewrite rotprod_seq by (fold r; assumption). fold r.
    rewrite (kprod_ext (fun l => match nth_error ts l with Some t => R t (nth l (J ++ x) 0%nat) (nth l I 0%nat) | None => 1 end)
       (fun l => match nth_error ts l with Some t => R t (nth l J 0%nat) (nth l I 0%nat) | None => 1 end) (seq 0 r)); [ring|].
    intros l Hl. apply in_seq in Hl. now rewrite app_nth1 by lia. }
  rewrite (sum_letters (fun a : nat * (slot * nat) => fst a) (fun a v => delta (snd (snd a)) v)
     (fun l v => match nth_error ts l with Some t => R t v (nth l I 0%nat) | None => 1 end) (r + b) (sval Sl y) SB).
  apply kprod_ext. intros l Hl. rewrite forallb_forall in OK. specialize (OK l Hl). unfold letter_ok in OK.
  apply in_seq in Hl.
  pose proof (sval_at Sl l y LY) as AT.
  assert (RG : forall a, In a (filter (fun a => Nat.eqb l (fst a)) (sval Sl y)) -> (snd (snd a) < 3)%nat).
  { intros a X. apply filter_In in X as [X _]. apply RY. now apply sval_range in X. }
  remember (filter (fun a => Nat.eqb l (fst a)) (sval Sl y)) as F eqn:EF. clear EF.
  destruct (nth_error ts l) as [t|] eqn:NT.
  - apply keqb_true in OK. rewrite OK in AT. destruct F as [|[l0 [t0 v0]] [|]]; try discriminate. cbn in AT. injection AT as ->.
    specialize (RG _ (or_introl eq_refl)). cbn in RG. cbn [map fst snd].
    assert (LT : (l < r)%nat) by (apply nth_error_Some; congruence). destruct (Nat.ltb_spec l r); [|lia].
    unfold kprod. cbn [fold_right].
    transitivity (R t v0 (nth l I 0%nat)).
    + rewrite <- (sum_delta (fun v => R t v (nth l I 0%nat)) v0 3 0) by lia. apply ksum_ext. intros v _.
      rewrite (delta_sym v0 v). ring.
    + rewrite <- (sum_delta (fun v => R t v0 v) (nth l I 0%nat) 3 0). { apply ksum_ext. intros v _. ring. }
      apply in_idxs in HI as [_ HI]. assert (nth l I 0 < 3)%nat by (apply nth_lt3; exact HI). lia.
  - destruct (at_letter l Sl) as [|a [|a' [|]]]; try discriminate. apply keqb_true in OK. subst a'.
    destruct F as [|[l0 [t0 v0]] [|[l1 [t1 v1]] [|]]]; try discriminate. cbn in AT. injection AT as -> ->.
    assert (R0 : (v0 < 3)%nat) by (apply (RG (l0, (a, v0))); now left).
    assert (R1 : (v1 < 3)%nat) by (apply (RG (l1, (flip a, v1))); right; now left).
    destruct (Nat.ltb_spec l r) as [LT|_]; [apply nth_error_None in NT; fold r in NT; lia|].
    cbn [map fst snd]. unfold kprod. cbn [fold_right].
    transitivity (delta v0 v1 : K).
    + rewrite <- (sum_delta (fun v => delta v v1) v0 3 0) by lia. apply ksum_ext. intros v _.
      rewrite (delta_sym v0 v), (delta_sym v1 v). ring.
    + rewrite <- (R_contract a v0 v1) by assumption. apply ksum_ext. intros v _. ring.
Qed.

Theorem mono_covariant (V V' : fname -> idx -> K) ts m I :
  mono_typed ts m = true -> In I (idxs (List.length ts)) ->
  (forall f t, In f (m_f m) -> fac_slots ts f = Some t -> law V V' ts f t) ->
  mval V' m I = rot U ts (mval V m) I.
Proof.
  unfold mono_typed. destruct (facs_slots ts (m_f m)) as [Sl|] eqn:FS; [|discriminate]. intros TY HI LW.
  apply andb_true_iff in TY as [OK BD]. set (r := List.length ts) in *.
  pose proof (facs_slots_letters ts (m_f m) Sl FS) as LET.
  assert (LS : List.length (letters (m_f m)) = List.length Sl) by (rewrite <- LET; apply map_length).
  unfold rot. fold (idxs r). unfold mval at 1.
  transitivity (kc (K:=K) (m_re m) (m_im m) * ksum (map (fun y => gprod V (m_f m) y *
     ksum (map (fun x => rotprod U (map snd Sl) y (map (fun l => nth l (I ++ x) 0%nat) (map fst Sl))) (idxs (m_b m)))) (idxs (List.length Sl)))).
  - f_equal. rewrite (ksum_ext (fun y => gprod V (m_f m) y * _)
      (fun y => ksum (map (fun x => gprod V (m_f m) y * rotprod U (map snd Sl) y (map (fun l => nth l (I ++ x) 0%nat) (map fst Sl))) (idxs (m_b m)))))
      by (intros; now rewrite ksum_scale).
    rewrite ksum_swap. apply ksum_ext. intros x Hx. rewrite gprod_val, <- LET.
    rewrite (gprod_rot V V' ts (m_f m) Sl FS LW).
    + apply ksum_ext. intros y _. ring.
    + apply in_idxs. split; [now rewrite !map_length|]. intros v X. apply in_map_iff in X as (l & <- & _). apply nth_lt3.
      intros w W. apply in_app_iff in W as [W|W]; [apply in_idxs in HI; now apply HI|apply in_idxs in Hx; now apply Hx].
  - transitivity (kc (K:=K) (m_re m) (m_im m) * ksum (map (fun y => gprod V (m_f m) y *
       ksum (map (fun J => ksum (map (fun x => rotprod U ts J I * dprod y (map (fun l => nth l (J ++ x) 0%nat) (map fst Sl))) (idxs (m_b m)))) (idxs r))) (idxs (List.length Sl)))).
    { f_equal. apply ksum_ext. intros y Hy. f_equal. apply in_idxs in Hy as [LY RY]. now apply contraction. }
    rewrite <- ksum_scale.
    rewrite (ksum_ext _ (fun y => ksum (map (fun J => ksum (map (fun x => kc (K:=K) (m_re m) (m_im m) * (rotprod U ts J I *
        (dprod y (map (fun l => nth l (J ++ x) 0%nat) (map fst Sl)) * gprod V (m_f m) y))) (idxs (m_b m)))) (idxs r)))).
    2:{ intros y _. rewrite <- ksum_scale. rewrite <- ksum_scale. apply ksum_ext. intros J _.
        rewrite <- ksum_scale. rewrite <- ksum_scale. apply ksum_ext. intros x _. ring. }
    rewrite ksum_swap. apply ksum_ext. intros J HJ. rewrite ksum_swap. unfold mval.
    rewrite <- ksum_scale. rewrite <- ksum_scale. apply ksum_ext. intros x Hx.
    rewrite ksum_scale. rewrite ksum_scale. rewrite gprod_val, <- LET.
    assert (IN : In (map (fun l => nth l (J ++ x) 0%nat) (map fst Sl)) (idxs (List.length Sl))).
    { apply in_idxs. split; [now rewrite !map_length|]. intros v X. apply in_map_iff in X as (l & <- & _). apply nth_lt3.
      intros w W. apply in_app_iff in W as [W|W]; [apply in_idxs in HJ; now apply HJ|apply in_idxs in Hx; now apply Hx]. }
    rewrite (sum_dprod (gprod V (m_f m)) _ _ IN). ring.
Qed.
Theorem n_covariant (V V' : fname -> idx -> K) ts n I :
  n_typed ts n = true -> In I (idxs (List.length ts)) ->
  (forall m f t, In m (snd n) -> In f (m_f m) -> fac_slots ts f = Some t -> law V V' ts f t) ->
  nval V' n I = rot U ts (nval V n) I.
Proof.
  intros TY HI LW. apply andb_true_iff in TY as [_ TY]. rewrite forallb_forall in TY. unfold nval.
  rewrite (ksum_ext (fun m => mval V' m I) (fun m => rot U ts (mval V m) I)).
  2:{ intros m Hm. apply mono_covariant; auto. intros f t. now apply LW. }
  unfold rot. rewrite ksum_swap. apply ksum_ext. intros J _. now rewrite ksum_scale.
Qed.
End Cov.
