(* Canonical forms of monomials at points with the symmetries of the operators. *)
From Coq Require Import List Bool ZArith QArith Arith Lia String Ascii Permutation.
From Verif Require Import PyBase Num SymModel EftModel NpModel NpProofs BetaModel BetaProg BetaNorm BetaSpec BetaSound BetaCov BetaFacts BetaProofs BetaDeg.
Import ListNotations.
Local Open Scope string_scope.
Local Open Scope list_scope.

(* ---------- images of a factor under the symmetries ---------- *)
Definition gens_of (f : fname) : list (list nat * bool) :=
  match f with
  | FC k => match dget symmetries k with Some g => g | None => [] end
  | FI3 => [([1; 0]%nat, false)]
  | _ => []
  end.
Definition fgen (g : list nat * bool) (f : fac) : fac :=
  if forallb (fun i => (i <? List.length (snd f))%nat) (fst g) && Nat.eqb (List.length (fst g)) (List.length (snd f))
  then (fst (fst f), xorb (snd g) (snd (fst f)), permute (fst g) (snd f)) else f.
Definition add_new (f : fac) (l : list fac) : list fac :=
  if existsb (fun g => keqb (snd (fst g), snd g) (snd (fst f), snd f)) l then l else l ++ [f].
Definition close1 (gs : list (list nat * bool)) (l : list fac) : list fac :=
  fold_left (fun acc f => fold_left (fun acc g => add_new (fgen g f) acc) gs acc) l l.
Definition imgs (f : fac) : list fac := let gs := gens_of (fst (fst f)) in close1 gs (close1 gs (close1 gs [f])).
(* drop the conjugation of what is real *)
Definition strip (f : fac) : fac :=
  match f with
  | (FC k, c, []) => match dget symmetries k with
                     | Some gs => if kmem ([], true) gs then (FC k, false, []) else f
                     | None => f
                     end
  | (FC k, c, L) => f
  | (n, c, L) => (n, false, L)
  end.
Fixpoint choices {A} (l : list (list A)) : list (list A) :=
  match l with [] => [[]] | x :: r => let cr := choices r in flat_map (fun a => map (cons a) cr) x end.
Definition sname (f : fname) : string := match f with FC k => k | FI3 => "" | FH => " " | FHinv => "!" end.
Definition str_leb (a b : string) : bool := match String.compare a b with Gt => false | _ => true end.
Definition fleb (f g : fac) : bool :=
  match String.compare (sname (fst (fst f))) (sname (fst (fst g))) with
  | Lt => true | Gt => false | Eq => implb (snd (fst f)) (snd (fst g))
  end.
(* all ways to insert f into a sorted list *)
Fixpoint ins_all (f : fac) (l : list fac) : list (list fac) :=
  match l with
  | [] => [[f]]
  | g :: r => (if fleb f g then [f :: g :: r] else []) ++ (if fleb g f then map (cons g) (ins_all f r) else [])
  end.
Fixpoint arrange (l : list fac) : list (list fac) :=
  match l with [] => [[]] | f :: r => flat_map (ins_all f) (arrange r) end.
Fixpoint ins1 (f : fac) (l : list fac) : list fac :=
  match l with [] => [f] | g :: r => if fleb f g then f :: g :: r else g :: ins1 f r end.
Definition isort (l : list fac) : list fac := fold_right ins1 [] l.

(* ---------- naming the bound letters ---------- *)
Fixpoint npos (x : nat) (l : list nat) : nat := match l with [] => O | y :: r => if Nat.eqb x y then O else Datatypes.S (npos x r) end.
Definition first_occ (r : nat) (l : list nat) : list nat :=
  fold_left (fun acc x => if (x <? r)%nat then acc else if existsb (Nat.eqb x) acc then acc else acc ++ [x]) l [].
Definition ren (r : nat) (rho : list nat) (l : nat) : nat := if (l <? r)%nat then l else (r + npos l rho)%nat.
Definition rename (r b : nat) (fs : list fac) : option (list fac) :=
  let rho := first_occ r (letters fs) in
  if Nat.eqb (List.length rho) b && knodup rho && forallb (fun l => (r <=? l)%nat && (l <? r + b)%nat) rho
  then Some (map (map_letters (ren r rho)) fs) else None.

Fixpoint nats_cmp (a b : list nat) : comparison :=
  match a, b with
  | [], [] => Eq | [], _ => Lt | _, [] => Gt
  | x :: a', y :: b' => match Nat.compare x y with Eq => nats_cmp a' b' | c => c end
  end.
Fixpoint facs_cmp (a b : list fac) : comparison :=
  match a, b with
  | [], [] => Eq | [], _ => Lt | _, [] => Gt
  | f :: a', g :: b' =>
      match String.compare (sname (fst (fst f))) (sname (fst (fst g))) with
      | Eq => match Bool.compare (snd (fst f)) (snd (fst g)) with
              | Eq => match nats_cmp (snd f) (snd g) with Eq => facs_cmp a' b' | c => c end
              | c => c end
      | c => c end
  end.
Definition fmin (a b : list fac) : list fac := match facs_cmp a b with Gt => b | _ => a end.

Definition ok_mono (r : nat) (m : mono) : bool :=
  forallb (fun f => arity_ok f && forallb (fun l => (l <? r + m_b m)%nat) (snd f)) (m_f m).
Definition is_scalar (f : fac) : bool := match snd f with [] => true | _ => false end.
Definition candidates (r b : nat) (te : list fac) : list (list fac) :=
  flat_map (fun ch => flat_map (fun a => match rename r b a with Some x => [x] | None => [] end) (arrange ch)) (choices (map imgs te)).
Definition canon (r : nat) (m : mono) : mono :=
  let fs := map strip (m_f m) in
  let sc := isort (filter is_scalar fs) in
  let te := filter (fun f => negb (is_scalar f)) fs in
  match candidates r (m_b m) te with
  | [] => m
  | c :: cs => mkM (m_re m) (m_im m) (m_b m) (sc ++ fold_left fmin cs c)
  end.

(* ---------- collecting equal monomials ---------- *)
Fixpoint collect1 (m : mono) (l : list mono) : list mono :=
  match l with
  | [] => [m]
  | x :: r => if Nat.eqb (m_b x) (m_b m) && (match facs_cmp (m_f x) (m_f m) with Eq => keqb (m_f x) (m_f m) | _ => false end)
              then mkM (Qred (m_re x + m_re m)) (Qred (m_im x + m_im m)) (m_b x) (m_f x) :: r
              else x :: collect1 m r
  end.
Definition collect (l : list mono) : list mono := fold_left (fun acc m => collect1 m acc) l [].
Definition zero_mono (m : mono) : bool := Z.eqb (Qnum (m_re m)) 0 && Z.eqb (Qnum (m_im m)) 0.

(* ---------- the relation of qqql as a projection ---------- *)
Definition fexp (f : fac) : list (Q * fac) :=
  match f with
  | (FC k, c, [p; r; s; t]) =>
      if String.eqb k "qqql" then
        [((2#3)%Q, (FC k, c, [p; r; s; t])); ((-1#6)%Q, (FC k, c, [p; s; r; t])); ((-1#6)%Q, (FC k, c, [r; p; s; t]));
         ((1#6)%Q, (FC k, c, [r; s; p; t])); ((1#6)%Q, (FC k, c, [s; p; r; t])); ((1#3)%Q, (FC k, c, [s; r; p; t]))]
      else [(1%Q, f)]
  | _ => [(1%Q, f)]
  end.
Fixpoint exp_fs (fs : list fac) : list (Q * list fac) :=
  match fs with
  | [] => [(1%Q, [])]
  | f :: r => let er := exp_fs r in flat_map (fun p => map (fun q => ((fst p * fst q)%Q, snd p :: snd q)) er) (fexp f)
  end.
Definition mexp (m : mono) : list mono :=
  map (fun p => mkM (Qred (m_re m * fst p)) (Qred (m_im m * fst p)) (m_b m) (snd p)) (exp_fs (m_f m)).

Definition is_zero (n : nform) : bool :=
  let ms := flat_map mexp (snd n) in
  forallb (ok_mono (fst n)) ms && forallb zero_mono (collect (map (canon (fst n)) ms)).

(* n - its image under (p, c) *)
Definition sym_diff (g : list nat * bool) (n : nform) : nform :=
  let n' := nrelabel (fst g) (fst n) 0 n in
  nadd n (nscale (-1) 0 (if snd g then nconj n' else n')).
Definition sym_chk (ex : list (string * (list nat * bool))) (k : string) (n : nform) : bool :=
  match dget symmetries k with
  | Some gs => forallb (fun g => kmem (k, g) ex ||
       (Nat.eqb (List.length (fst g)) (fst n) && forallb (fun i => (i <? fst n)%nat) (fst g) && is_zero (sym_diff g n))) gs
  | None => true
  end.

(* ---------- soundness ---------- *)
Section Sound.
Context {K : StarField}.
Local Open Scope K_scope.
Add Field KFsy : (k_field K).
Notation cdict := (dict string (cval K)).
Variable C : cdict.
Variable H : K.
Hypothesis SYM : forall k gs g, dget symmetries k = Some gs -> In g gs -> obeys k g C.
Hypothesis HR : kreal H.
Hypothesis HN : H <> 0.
Notation V := (venv C H).
Definition lt3s (z : idx) : Prop := forall x, In x z -> (x < 3)%nat.
Definition samev (f g : fac) : Prop := forall z, lt3s z -> fval V z f = fval V z g.

Lemma permute_map (g : nat -> nat) p L : (forall i, In i p -> (i < List.length L)%nat) -> permute p (map g L) = map g (permute p L).
Proof.
  intros B. unfold permute. rewrite map_map. apply map_ext_in. intros i Hi. specialize (B i Hi).
  rewrite (nth_indep (map g L) 0%nat (g 0%nat)) by (now rewrite map_length). apply map_nth.
Qed.
Lemma arity_fgen g f : arity_ok f = true -> arity_ok (fgen g f) = true.
Proof.
  unfold fgen. destruct (forallb _ (fst g) && Nat.eqb (List.length (fst g)) (List.length (snd f))) eqn:E; [|auto].
  apply andb_true_iff in E as [_ E]. apply Nat.eqb_eq in E. unfold arity_ok. cbn [fst snd]. unfold permute. rewrite map_length, E. auto.
Qed.
Lemma fgen_name g f : fst (fst (fgen g f)) = fst (fst f).
Proof. unfold fgen. destruct (_ && _); reflexivity. Qed.
Lemma kconj_cj c d (x : K) : (if xorb c d then x^* else x) = (if d then (if c then x^* else x)^* else (if c then x^* else x)).
Proof. destruct c, d; cbn [xorb]; rewrite ?kconj_conj; reflexivity. Qed.
Lemma fgen_val g f : arity_ok f = true -> In g (gens_of (fst (fst f))) -> samev (fgen g f) f.
Proof.
  intros A G z HZ. unfold fgen.
  destruct (forallb _ (fst g) && Nat.eqb (List.length (fst g)) (List.length (snd f))) eqn:E; [|reflexivity].
  apply andb_true_iff in E as [E1 E2]. apply Nat.eqb_eq in E2. rewrite forallb_forall in E1.
  assert (B : forall i, In i (fst g) -> (i < List.length (snd f))%nat) by (intros i Hi; apply Nat.ltb_lt; now apply E1).
  unfold fval. cbn [fst snd]. rewrite <- (permute_map (fun l => nth l z 0%nat) (fst g) (snd f) B).
  rewrite kconj_cj. destruct f as [[n c] L]. cbn [fst snd] in *. destruct n as [k| | |]; try (destruct G; fail).
  - cbn [gens_of] in G. destruct (dget symmetries k) as [gs|] eqn:GS; [|destruct G].
    pose proof (SYM k gs g GS G (map (fun l => nth l z 0%nat) L)) as S.
    destruct (fac_index (FC k, c, L) z A HZ k eq_refl) as [_ IN]. cbn [snd] in IN. specialize (S IN).
    unfold cj, coef in S. cbn [venv]. rewrite <- S. reflexivity.
  - destruct G as [<-|[]]. cbn [fst snd] in *. destruct L as [|a [|b [|]]]; try discriminate.
    cbn [map permute venv nth]. rewrite Nat.eqb_sym. reflexivity.
Qed.
Definition img_ok (f g : fac) : Prop := fst (fst g) = fst (fst f) /\ arity_ok g = true /\ samev g f.
Lemma add_new_ok (P : fac -> Prop) f l : P f -> Forall P l -> Forall P (add_new f l).
Proof. intros A B. unfold add_new. destruct (existsb (fun g => keqb (snd (fst g), snd g) (snd (fst f), snd f)) l); [exact B|]. apply Forall_app. auto. Qed.
Lemma fold_gens_ok (P : fac -> Prop) gs f : (forall g, In g gs -> P (fgen g f)) -> forall acc, Forall P acc ->
  Forall P (fold_left (fun acc g => add_new (fgen g f) acc) gs acc).
Proof.
  induction gs as [|g gs IH]; intros A acc B; [exact B|]. cbn [fold_left]. apply IH; [intros; apply A; now right|].
  apply add_new_ok; [apply A; now left|exact B].
Qed.
Lemma close1_ok (P : fac -> Prop) gs l : (forall g f, In g gs -> P f -> P (fgen g f)) -> Forall P l -> Forall P (close1 gs l).
Proof.
  intros A B. unfold close1.
  assert (X : forall l2 acc, Forall P l2 -> Forall P acc -> Forall P (fold_left (fun acc f => fold_left (fun acc g => add_new (fgen g f) acc) gs acc) l2 acc)).
  { induction l2 as [|f l2 IH]; intros acc L2 LA; [exact LA|]. cbn [fold_left]. inversion L2; subst. apply IH; [assumption|].
    apply fold_gens_ok; [|assumption]. intros g G. now apply A. }
  now apply X.
Qed.
Lemma imgs_ok f : arity_ok f = true -> Forall (img_ok f) (imgs f).
Proof.
  intros A. unfold imgs.
  assert (ST : forall g x, In g (gens_of (fst (fst f))) -> img_ok f x -> img_ok f (fgen g x)).
  { intros g x G (N & AX & S). split; [now rewrite fgen_name|]. split; [now apply arity_fgen|].
    intros z HZ. rewrite (fgen_val g x AX) by (rewrite ?N; assumption). now apply S. }
  do 3 (apply close1_ok; [exact ST|]). constructor; [|constructor]. split; [reflexivity|]. split; [exact A|]. intros z _. reflexivity.
Qed.
Lemma strip_ok f : arity_ok f = true -> arity_ok (strip f) = true /\ samev (strip f) f /\ snd (strip f) = snd f.
Proof.
  intros A. destruct f as [[n c] L]. assert (C01 : forall x : K, x = 1 \/ x = 0 -> (if c then x^* else x) = x).
  { intros x [-> | ->]; destruct c; try reflexivity; [apply kconj_1|apply kconj_0]. }
  destruct n as [k| | |]; cbn [strip].
  - destruct L as [|l L]; [|split; [exact A|split; [intros z _|]; reflexivity]].
    destruct (dget symmetries k) as [gs|] eqn:G; [|split; [exact A|split; [intros z _|]; reflexivity]].
    destruct (kmem ([], true) gs) eqn:M; [|split; [exact A|split; [intros z _|]; reflexivity]].
    apply kmem_In in M. split; [exact A|]. split; [|reflexivity]. intros z HZ.
    destruct (fac_index (FC k, c, []) z A HZ k eq_refl) as [_ IN]. cbn [snd map] in IN.
    pose proof (SYM k gs _ G M [] IN) as S. unfold cj, coef in S. cbn [fst snd permute map] in S.
    unfold fval. cbn [fst snd map venv]. destruct c; [exact S|reflexivity].
  - split; [exact A|]. split; [|reflexivity]. intros z HZ. unfold fval. cbn [fst snd venv]. symmetry. apply C01.
    destruct (Nat.eqb _ _); auto.
  - split; [exact A|]. split; [|reflexivity]. intros z HZ. unfold fval. cbn [fst snd venv]. destruct c; [now rewrite HR|reflexivity].
  - split; [exact A|]. split; [|reflexivity]. intros z HZ. unfold fval. cbn [fst snd venv]. destruct c; [|reflexivity].
    symmetry. rewrite kconj_inv by exact HN. now rewrite HR.
Qed.

(* ---------- permutations, choices ---------- *)
Lemma kprod_samev z fs gs : lt3s z -> Forall2 samev fs gs -> kprod (map (fval V z) fs) = kprod (map (fval V z) gs).
Proof. intros HZ F. induction F as [|f g fs gs S F IH]; [reflexivity|]. cbn [map]. rewrite !kprod_cons, IH, (S z HZ). reflexivity. Qed.
Lemma choices_in {A} (l : list (list A)) : forall c, In c (choices l) -> Forall2 (fun x xs => In x xs) c l.
Proof.
  induction l as [|x l IH]; intros c IN; [destruct IN as [<-|[]]; constructor|]. cbn [choices] in IN.
  apply in_flat_map in IN as (a & Ha & IN). apply in_map_iff in IN as (c' & <- & IN). constructor; auto.
Qed.
Lemma ins_all_perm f l : forall c, In c (ins_all f l) -> Permutation c (f :: l).
Proof.
  induction l as [|g l IH]; intros c IN; cbn [ins_all] in IN; [destruct IN as [<-|[]]; reflexivity|].
  apply in_app_iff in IN as [IN|IN].
  - destruct (fleb f g); [destruct IN as [<-|[]]; reflexivity|destruct IN].
  - destruct (fleb g f); [|destruct IN]. apply in_map_iff in IN as (c' & <- & IN). rewrite (IH c' IN). apply perm_swap.
Qed.
Lemma arrange_perm l : forall c, In c (arrange l) -> Permutation c l.
Proof.
  induction l as [|f l IH]; intros c IN; cbn [arrange] in IN; [destruct IN as [<-|[]]; reflexivity|].
  apply in_flat_map in IN as (c' & Hc & IN). rewrite (ins_all_perm f c' c IN). constructor. now apply IH.
Qed.
Lemma ins1_perm f l : Permutation (ins1 f l) (f :: l).
Proof.
  induction l as [|g l IH]; [reflexivity|]. cbn [ins1]. destruct (fleb f g); [reflexivity|]. rewrite IH. apply perm_swap.
Qed.
Lemma isort_perm l : Permutation (isort l) l.
Proof. induction l as [|f l IH]; [reflexivity|]. cbn [isort fold_right]. change (fold_right ins1 [] l) with (isort l). rewrite ins1_perm. now constructor. Qed.
Lemma filter_perm {A} (P : A -> bool) l : Permutation l (filter P l ++ filter (fun x => negb (P x)) l).
Proof.
  induction l as [|x l IH]; [reflexivity|]. cbn [filter]. destruct (P x); cbn [negb app]; [now constructor|].
  apply Permutation_cons_app. exact IH.
Qed.

(* ---------- renaming the bound letters ---------- *)
Lemma npos_nth rho i : NoDup rho -> (i < List.length rho)%nat -> npos (nth i rho 0%nat) rho = i.
Proof.
  revert i. induction rho as [|x rho IH]; intros i ND L; [cbn in L; lia|]. inversion ND as [|? ? NI ND']; subst.
  destruct i as [|i]; cbn [nth npos]; [now rewrite Nat.eqb_refl|].
  destruct (Nat.eqb_spec (nth i rho 0%nat) x) as [E|_]; [|f_equal; apply IH; [exact ND'|cbn in L; lia]].
  exfalso. apply NI. rewrite <- E. apply nth_In. cbn in L. lia.
Qed.
Definition tr (r b : nat) (rho : list nat) (x : idx) : idx := map (fun j => nth (npos (r + j) rho) x 0%nat) (seq 0 b).
Lemma nth_map_seq (g : nat -> nat) b i : (i < b)%nat -> nth i (map g (seq 0 b)) 0%nat = g i.
Proof.
  intros L. rewrite (nth_indep (map g (seq 0 b)) 0%nat (g 0%nat)) by (now rewrite map_length, seq_length).
  rewrite map_nth, seq_nth by exact L. reflexivity.
Qed.
Lemma NoDup_map_in {A B} (g : A -> B) l : (forall x y, In x l -> In y l -> g x = g y -> x = y) -> NoDup l -> NoDup (map g l).
Proof.
  intros I ND. induction ND as [|x l NI ND IH]; [constructor|]. cbn [map]. constructor.
  - intros IN. apply in_map_iff in IN as (y & E & Hy). apply NI. now rewrite (I x y (or_introl eq_refl) (or_intror Hy) (eq_sym E)).
  - apply IH. intros a b Ha Hb. apply I; now right.
Qed.
Lemma tr_perm r b rho : List.length rho = b -> NoDup rho -> (forall l, In l rho -> (r <= l < r + b)%nat) ->
  Permutation (map (tr r b rho) (idxs b)) (idxs b).
Proof.
  intros L ND B. apply NoDup_Permutation_bis.
  - apply NoDup_map_in; [|apply NoDup_idxs].
    intros x y Hx Hy E. apply idxs_length in Hx, Hy. apply (nth_ext x y 0%nat 0%nat); [congruence|]. intros i Hi. rewrite Hx in Hi.
    assert (IN : In (nth i rho 0%nat) rho) by (apply nth_In; lia). specialize (B _ IN).
    assert (G : forall w : idx, nth (nth i rho 0 - r)%nat (tr r b rho w) 0%nat = nth i w 0%nat).
    { intros w. unfold tr. rewrite (nth_map_seq (fun j => nth (npos (r + j) rho) w 0%nat)) by lia.
      replace (r + (nth i rho 0 - r))%nat with (nth i rho 0%nat) by lia. rewrite npos_nth by (auto; lia). reflexivity. }
    rewrite <- (G x), <- (G y), E. reflexivity.
  - now rewrite map_length.
  - intros x Hx. apply in_map_iff in Hx as (y & <- & Hy). apply in_idxs. unfold tr. rewrite map_length, seq_length. split; [reflexivity|].
    intros v Hv. apply in_map_iff in Hv as (j & <- & _). apply nth_lt3. apply in_idxs in Hy. apply Hy.
Qed.
Lemma ren_fval r b rho I x f : List.length rho = b -> List.length I = r -> List.length x = b ->
  (forall l, In l (snd f) -> (l < r + b)%nat) ->
  fval V (I ++ x) (map_letters (ren r rho) f) = fval V (I ++ tr r b rho x) f.
Proof.
  intros L LI LX B. apply fval_map_letters. intros l Hl. specialize (B l Hl). unfold ren.
  destruct (Nat.ltb_spec l r) as [A|A].
  - rewrite !app_nth1 by lia. reflexivity.
  - rewrite (app_nth2 I x) by lia. rewrite (app_nth2 I (tr r b rho x)) by lia. rewrite LI. unfold tr.
    rewrite (nth_map_seq (fun j => nth (npos (r + j) rho) x 0%nat)) by lia.
    replace (r + (l - r))%nat with l by lia. f_equal. lia.
Qed.
Definition letters_ok (r b : nat) (fs : list fac) : Prop := forall f l, In f fs -> In l (snd f) -> (l < r + b)%nat.
Lemma rename_sum r b fs fs' sc I : rename r b fs = Some fs' -> In I (idxs r) -> letters_ok r b fs -> (forall f, In f sc -> snd f = []) ->
  ksum (map (fun x => kprod (map (fval V (I ++ x)) (sc ++ fs'))) (idxs b)) =
  ksum (map (fun x => kprod (map (fval V (I ++ x)) (sc ++ fs))) (idxs b)).
Proof.
  unfold rename. set (rho := first_occ r (letters fs)). intros E HI LO SC.
  destruct (Nat.eqb_spec (List.length rho) b) as [L|]; [|discriminate]. cbn [andb] in E.
  destruct (knodup rho) eqn:ND; [|discriminate]. cbn [andb] in E. apply knodup_NoDup in ND.
  destruct (forallb _ rho) eqn:B; [|discriminate]. injection E as <-. rewrite forallb_forall in B.
  assert (B' : forall l, In l rho -> (r <= l < r + b)%nat).
  { intros l Hl. specialize (B l Hl). apply andb_true_iff in B as [B1 B2]. apply Nat.leb_le in B1. apply Nat.ltb_lt in B2. lia. }
  transitivity (ksum (map (fun x => kprod (map (fval V (I ++ x)) (sc ++ fs))) (map (tr r b rho) (idxs b)))).
  2:{ apply ksum_perm, Permutation_map. now apply tr_perm. }
  rewrite map_map. apply ksum_ext. intros x Hx. apply idxs_length in Hx, HI.
  rewrite !map_app, !kprod_app. f_equal.
  - f_equal. apply map_ext_in. intros f Hf. unfold fval. rewrite (SC f Hf). reflexivity.
  - rewrite map_map. f_equal. apply map_ext_in. intros f Hf. apply ren_fval; auto. intros l. now apply LO.
Qed.

Lemma fmin_in cs : forall c, In (fold_left fmin cs c) (c :: cs).
Proof.
  induction cs as [|x cs IH]; intros c; [now left|]. cbn [fold_left]. destruct (IH (fmin c x)) as [E|E].
  - rewrite <- E. unfold fmin. destruct (facs_cmp c x); [now left|now left|right; now left].
  - right. now right.
Qed.
Lemma imgs_choice te : forallb arity_ok te = true -> forall ch, In ch (choices (map imgs te)) -> Forall2 samev ch te.
Proof.
  intros A ch IN. apply choices_in in IN. revert te A IN. induction ch as [|c ch IH]; intros [|f te] A IN; inversion IN; subst; [constructor|].
  cbn [forallb] in A. apply andb_true_iff in A as [A1 A2]. constructor; [|now apply IH].
  pose proof (imgs_ok f A1) as F. rewrite Forall_forall in F. apply (F c). assumption.
Qed.
(* the letters of an image are those of the factor *)
Lemma fgen_letters g f l : In l (snd (fgen g f)) -> In l (snd f).
Proof.
  unfold fgen. destruct (forallb _ (fst g) && Nat.eqb (List.length (fst g)) (List.length (snd f))) eqn:E; [|auto].
  apply andb_true_iff in E as [E1 _]. rewrite forallb_forall in E1. cbn [snd]. unfold permute. intros IN.
  apply in_map_iff in IN as (i & <- & Hi). apply nth_In. apply Nat.ltb_lt. now apply E1.
Qed.
Lemma imgs_letters f g l : In g (imgs f) -> In l (snd g) -> In l (snd f).
Proof.
  assert (F : Forall (fun g => forall l, In l (snd g) -> In l (snd f)) (imgs f)).
  { unfold imgs. assert (ST : forall g x, In g (gens_of (fst (fst f))) -> (forall l, In l (snd x) -> In l (snd f)) -> forall l, In l (snd (fgen g x)) -> In l (snd f)).
    { intros g' x _ S l' Hl. apply S. now apply fgen_letters in Hl. }
    do 3 (apply close1_ok; [exact ST|]). constructor; [auto|constructor]. }
  rewrite Forall_forall in F. intros G. now apply F.
Qed.
Lemma choice_letters te : forall ch, In ch (choices (map imgs te)) -> forall r b, letters_ok r b te -> letters_ok r b ch.
Proof.
  intros ch IN. apply choices_in in IN. revert te IN. induction ch as [|c ch IH]; intros [|f te] IN r b LO; inversion IN; subst.
  - intros f l [].
  - intros g l [<-|G] Hl; [apply (LO f); [now left|]; eapply imgs_letters; eauto|].
    apply (IH te H5 r b (fun f l Hf => LO f l (or_intror Hf)) g l G Hl).
Qed.

Theorem canon_val r m I : ok_mono r m = true -> In I (idxs r) -> mval V (canon r m) I = mval V m I.
Proof.
  intros OK HI. unfold canon. set (fs := map strip (m_f m)). set (sc := isort (filter is_scalar fs)).
  set (te := filter (fun f => negb (is_scalar f)) fs).
  destruct (candidates r (m_b m) te) as [|c cs] eqn:CD; [reflexivity|].
  pose proof (fmin_in cs c) as IN. rewrite <- CD in IN. set (d := fold_left fmin cs c) in *.
  unfold candidates in IN. apply in_flat_map in IN as (ch & Hch & IN). apply in_flat_map in IN as (a & Ha & IN).
  destruct (rename r (m_b m) a) as [x|] eqn:RN; [|destruct IN]. destruct IN as [<-|[]].
  unfold ok_mono in OK. rewrite forallb_forall in OK.
  assert (AR : forall f, In f (m_f m) -> arity_ok f = true) by (intros f Hf; specialize (OK f Hf); now apply andb_true_iff in OK).
  assert (LO : letters_ok r (m_b m) (m_f m)).
  { intros f l Hf Hl. specialize (OK f Hf). apply andb_true_iff in OK as [_ OK]. rewrite forallb_forall in OK. specialize (OK l Hl).
    now apply Nat.ltb_lt in OK. }
  assert (LT : letters_ok r (m_b m) te).
  { intros f l Hf Hl. apply filter_In in Hf as [Hf _]. apply in_map_iff in Hf as (g & <- & Hg).
    destruct (strip_ok g (AR g Hg)) as (_ & _ & E). rewrite E in Hl. exact (LO g l Hg Hl). }
  assert (AT : forallb arity_ok te = true).
  { apply forallb_forall. intros f Hf. apply filter_In in Hf as [Hf _]. apply in_map_iff in Hf as (g & <- & Hg). now apply strip_ok, AR. }
  pose proof (choice_letters te ch Hch r (m_b m) LT) as LC. pose proof (arrange_perm ch a Ha) as PA.
  assert (LA : letters_ok r (m_b m) a).
  { intros f l Hf Hl. apply (LC f l); [|exact Hl]. now apply (Permutation_in _ PA). }
  unfold mval. cbn [m_re m_im m_b m_f]. f_equal.
  etransitivity; [apply (rename_sum r (m_b m) a x sc I RN HI LA)|].
  { intros f Hf. apply (Permutation_in _ (isort_perm _)) in Hf. apply filter_In in Hf as [_ Hf]. unfold is_scalar in Hf. destruct (snd f); [reflexivity|discriminate]. }
  apply ksum_ext. intros y Hy.
  assert (HZ : lt3s (I ++ y)).
  { intros v Hv. apply in_app_iff in Hv as [Hv|Hv]; [apply in_idxs in HI; now apply HI|apply in_idxs in Hy; now apply Hy]. }
  transitivity (kprod (map (fval V (I ++ y)) fs)).
  - transitivity (kprod (map (fval V (I ++ y)) (filter is_scalar fs ++ ch))).
    { apply kprod_perm, Permutation_map, Permutation_app; [apply isort_perm|exact PA]. }
    transitivity (kprod (map (fval V (I ++ y)) (filter is_scalar fs ++ te))).
    { rewrite !map_app, !kprod_app. f_equal. exact (kprod_samev (I ++ y) ch te HZ (imgs_choice te AT ch Hch)). }
    apply kprod_perm, Permutation_map. symmetry. apply filter_perm.
  - unfold fs. rewrite map_map. apply kprod_ext. intros f Hf. now apply strip_ok; [apply AR|].
Qed.

(* ---------- collecting ---------- *)
Lemma kc_add a b c d : kc (K:=K) (Qred (a + c)) (Qred (b + d)) = kc a b + kc c d.
Proof. unfold kc. rewrite !kQ_red', !kQ_add. ring. Qed.
Lemma kc_scale a b q : kc (K:=K) (Qred (a * q)) (Qred (b * q)) = kc a b * kQ q.
Proof. unfold kc. rewrite !kQ_red', !kQ_mul. ring. Qed.
Lemma ring_distr (a b c : K) : (a + b) * c = a * c + b * c.
Proof. ring. Qed.
Lemma collect1_val m l I : ksum (map (fun x => mval V x I) (collect1 m l)) = mval V m I + ksum (map (fun x => mval V x I) l).
Proof.
  induction l as [|x l IH]; [reflexivity|]. cbn [collect1].
  destruct (Nat.eqb_spec (m_b x) (m_b m)) as [EB|]; cbn [andb]; [|cbn [map]; rewrite !ksum_cons, IH; ring].
  destruct (facs_cmp (m_f x) (m_f m)); try (cbn [map]; rewrite !ksum_cons, IH; ring).
  destruct (keqb_spec (m_f x) (m_f m)) as [EF|]; [|cbn [map]; rewrite !ksum_cons, IH; ring].
  cbn [map]. rewrite !ksum_cons.
  assert (E : mval V (mkM (Qred (m_re x + m_re m)) (Qred (m_im x + m_im m)) (m_b x) (m_f x)) I = mval V x I + mval V m I).
  { unfold mval. cbn [m_re m_im m_b m_f]. rewrite kc_add, EB, EF. apply ring_distr. }
  rewrite E. ring.
Qed.
Lemma collect_val l I : ksum (map (fun x => mval V x I) (collect l)) = ksum (map (fun x => mval V x I) l).
Proof.
  unfold collect. assert (G : forall acc, ksum (map (fun x => mval V x I) (fold_left (fun acc m => collect1 m acc) l acc)) =
    ksum (map (fun x => mval V x I) acc) + ksum (map (fun x => mval V x I) l)).
  { induction l as [|m l IH]; intros acc; cbn [fold_left map]; [change (ksum (@nil K)) with (0 : K); ring|].
    rewrite IH, collect1_val, ksum_cons. ring. }
  rewrite G. cbn [map]. change (ksum (@nil K)) with (0 : K). ring.
Qed.
Lemma zero_mono_val m I : zero_mono m = true -> mval V m I = 0.
Proof.
  unfold zero_mono. intros E. apply andb_true_iff in E as [E1 E2]. apply Z.eqb_eq in E1, E2. unfold mval, kc.
  assert (Z0 : forall q, Qnum q = 0%Z -> kQ (K:=K) q = 0).
  { intros [n d] E. cbn in E. subst n. rewrite <- kQ_0. apply kQ_Qeq. reflexivity. }
  rewrite (Z0 _ E1), (Z0 _ E2). ring.
Qed.

(* ---------- qqql ---------- *)
Hypothesis QQQL : qqql_symmetric C.
Lemma qproj (a b c d e f : K) : a + c = e + f -> b + e = c + d ->
  a = kQ (2#3) * a + (kQ (-1#6) * b + (kQ (-1#6) * c + (kQ (1#6) * d + (kQ (1#6) * e + (kQ (1#3) * f + 0))))).
Proof.
  intros R1 R2. assert (F : f = a + c - e) by (rewrite R1; ring). assert (D : d = b + e - c) by (rewrite R2; ring). subst f d.
  assert (S3 : kQ (K:=K) (1#3) = kQ (1#6) + kQ (1#6)) by (rewrite <- kQ_add; now apply kQ_Qeq).
  assert (S2 : kQ (K:=K) (2#3) = 1 - (kQ (1#6) + kQ (1#6))).
  { rewrite <- kQ_1. replace (kQ (K:=K) 1) with (kQ (K:=K) ((2#3) + ((1#6) + (1#6)))) by (now apply kQ_Qeq). rewrite !kQ_add. ring. }
  assert (SM : kQ (K:=K) (-1#6) = - kQ (1#6)) by (rewrite <- kQ_opp; now apply kQ_Qeq).
  rewrite S3, S2, SM. ring.
Qed.
Lemma fexp_val f z : arity_ok f = true -> lt3s z ->
  fval V z f = ksum (map (fun p => kQ (fst p) * fval V z (snd p)) (fexp f)).
Proof.
  intros A HZ.
  assert (T : fval V z f = ksum (map (fun p => kQ (fst p) * fval V z (snd p)) [(1%Q, f)])).
  { cbn [map fst snd]. rewrite ksum_cons, kQ_1. change (ksum (@nil K)) with (0 : K). ring. }
  destruct f as [[n c] L]. destruct n as [k| | |]; cbn [fexp]; try exact T.
  destruct L as [|p [|r [|s [|t [|]]]]]; try exact T. destruct (String.eqb_spec k "qqql") as [->|]; [|exact T]. clear T.
  destruct (fac_index _ z A HZ "qqql" eq_refl) as [_ IN]. cbn [snd map] in IN. rewrite (indices_of_idxs "qqql" [pln Fq; pln Fq; pln Fq; pln Fl] eq_refl) in IN.
  apply in_idxs in IN as [_ IN].
  assert (B : forall l, In l [p; r; s; t] -> (nth l z 0 < 3)%nat) by (intros l Hl; apply nth_lt3; exact HZ).
  assert (RL : forall a b d, In a [p; r; s; t] -> In b [p; r; s; t] -> In d [p; r; s; t] ->
     coef C "qqql" [nth a z 0; nth b z 0; nth d z 0; nth t z 0]%nat + coef C "qqql" [nth b z 0; nth a z 0; nth d z 0; nth t z 0]%nat =
     coef C "qqql" [nth d z 0; nth a z 0; nth b z 0; nth t z 0]%nat + coef C "qqql" [nth d z 0; nth b z 0; nth a z 0; nth t z 0]%nat).
  { intros a b d Ha Hb Hd. apply QQQL. rewrite (indices_of_idxs "qqql" [pln Fq; pln Fq; pln Fq; pln Fl] eq_refl). apply in_idxs. split; [reflexivity|].
    intros x [<-|[<-|[<-|[<-|[]]]]]; apply B; auto. right; right; right; now left. }
  assert (IP : In p [p; r; s; t]) by now left. assert (IR : In r [p; r; s; t]) by (right; now left). assert (IS : In s [p; r; s; t]) by (right; right; now left).
  pose proof (RL p r s IP IR IS) as R1. pose proof (RL p s r IP IS IR) as R2.
  cbn [map fst snd]. rewrite !ksum_cons. change (ksum (@nil K)) with (0 : K).
  assert (CJ : forall x y w v : K, x + y = w + v -> cj c x + cj c y = cj c w + cj c v).
  { intros x y w v E. destruct c; cbn [cj]; [|exact E]. now rewrite <- !kconj_add, E. }
  apply CJ in R1, R2. exact (qproj _ _ _ _ _ _ R1 R2).
Qed.
Lemma exp_fs_val fs z : forallb arity_ok fs = true -> lt3s z ->
  kprod (map (fval V z) fs) = ksum (map (fun p => kQ (fst p) * kprod (map (fval V z) (snd p))) (exp_fs fs)).
Proof.
  intros A HZ. induction fs as [|f fs IH].
  - cbn [exp_fs map fst snd]. rewrite ksum_cons, kQ_1. change (kprod (@nil K)) with (1 : K). change (ksum (@nil K)) with (0 : K). ring.
  - cbn [forallb] in A. apply andb_true_iff in A as [A1 A2]. cbn [map exp_fs]. rewrite kprod_cons, (IH A2), (fexp_val f z A1 HZ).
    generalize (fexp f). intros l. generalize (exp_fs fs). intros l2. clear IH A1 A2.
    induction l as [|p l IHl]; cbn [map flat_map]; [change (ksum (@nil K)) with (0 : K); ring|].
    rewrite ksum_cons, map_app, ksum_app, <- IHl, map_map, ring_distr. f_equal.
    rewrite <- ksum_scale. apply ksum_ext. intros q _. cbn [fst snd map]. rewrite kprod_cons, kQ_mul. ring.
Qed.
Lemma mexp_val r m I : forallb arity_ok (m_f m) = true -> In I (idxs r) ->
  mval V m I = ksum (map (fun x => mval V x I) (mexp m)).
Proof.
  intros A HI. unfold mexp. rewrite map_map. unfold mval at 1.
  rewrite (ksum_ext _ (fun x => ksum (map (fun p => kQ (fst p) * kprod (map (fval V (I ++ x)) (snd p))) (exp_fs (m_f m))))).
  2:{ intros x Hx. apply exp_fs_val; [exact A|]. intros v Hv. apply in_app_iff in Hv as [Hv|Hv]; [apply in_idxs in HI; now apply HI|apply in_idxs in Hx; now apply Hx]. }
  rewrite ksum_swap, <- ksum_scale. apply ksum_ext. intros p _. unfold mval. cbn [m_re m_im m_b m_f].
  rewrite (ksum_scale (kQ (fst p)) (fun x => kprod (map (fval V (I ++ x)) (snd p)))). rewrite kc_scale. ring.
Qed.
Theorem is_zero_sound n : is_zero n = true -> forallb (fun m => forallb arity_ok (m_f m)) (snd n) = true -> forall I, In I (idxs (fst n)) -> nval V n I = 0.
Proof.
  unfold is_zero. intros E A I HI. apply andb_true_iff in E as [E1 E2]. rewrite forallb_forall in E1, E2, A. unfold nval.
  rewrite (ksum_ext _ (fun m => ksum (map (fun x => mval V x I) (mexp m)))).
  2:{ intros m Hm. apply (mexp_val (fst n)); [now apply A|exact HI]. }
  transitivity (ksum (map (fun x => mval V x I) (flat_map mexp (snd n)))).
  { generalize (snd n). intros l. induction l as [|m l IH]; [reflexivity|]. cbn [map flat_map]. rewrite ksum_cons, map_app, ksum_app, IH. reflexivity. }
  transitivity (ksum (map (fun x => mval V x I) (map (canon (fst n)) (flat_map mexp (snd n))))).
  { rewrite map_map. apply ksum_ext. intros m Hm. symmetry. apply canon_val; [now apply E1|exact HI]. }
  rewrite <- collect_val. apply ksum_zero. intros m Hm. apply zero_mono_val. now apply E2.
Qed.
End Sound.

(* the entries of beta.py obey the symmetries, but for the exchange of two identical fields in ee *)
Definition ee_fierz : string * (list nat * bool) := ("ee", ([0; 3; 2; 1]%nat, false)).
Lemma beta_sym : all_entries (beta_nf true) (sym_chk [ee_fierz]) = true. Proof. vm_compute. reflexivity. Qed.
(* the relation of qqql, without the terms that contain duql and qque *)
Definition has_fac (ks : list string) (m : mono) : bool :=
  existsb (fun f => match fst (fst f) with FC k => kmem k ks | _ => false end) (m_f m).
Definition drop (ks : list string) (n : nform) : nform := (fst n, filter (fun m => negb (has_fac ks m)) (snd n)).
Definition qqql_diff (n : nform) : nform :=
  nadd (nadd n (nrelabel [1; 0; 2; 3]%nat 4 0 n)) (nscale (-1) 0 (nadd (nrelabel [2; 0; 1; 3]%nat 4 0 n) (nrelabel [2; 1; 0; 3]%nat 4 0 n))).
Definition qqql_chk (k : string) (n : nform) : bool :=
  if String.eqb k "qqql" then let n' := drop ["duql"; "qque"] n in is_zero (qqql_diff n') && arity_chk k (qqql_diff n') else true.
Lemma beta_qqql : all_entries (beta_nf true) qqql_chk = true. Proof. vm_compute. reflexivity. Qed.
Definition sym_arity (k : string) (n : nform) : bool :=
  match dget symmetries k with Some gs => forallb (fun g => arity_chk k (sym_diff g n)) gs | None => true end.
Lemma beta_sym_arity : all_entries (beta_nf true) sym_arity = true. Proof. vm_compute. reflexivity. Qed.

Section Use.
Context {K : StarField}.
Local Open Scope K_scope.
Add Field KFsy2 : (k_field K).
Notation cdict := (dict string (cval K)).
Lemma relabel0 (V : fname -> idx -> K) p n I : List.length p = fst n -> List.length I = fst n -> (forall l, In l p -> (l < fst n)%nat) -> wf_n n ->
  nval V (nrelabel p (fst n) 0 n) I = nval V n (permute p I).
Proof.
  intros L LI B W. rewrite nrelabel_val; [|exact L|exact LI|intros l Hl; specialize (B l Hl); lia|exact W].
  change (idxs 0) with [[] : idx]. cbn [map]. rewrite ksum_cons, app_nil_r. change (ksum (@nil K)) with (0 : K).
  change (map (fun l => nth l I 0%nat) p) with (permute p I). ring.
Qed.
Lemma kc_m1 : kc (K:=K) (-1) 0 = - (1).
Proof. unfold kc. rewrite kQ_0. change (-1)%Q with (Qopp 1). rewrite kQ_opp, kQ_1. ring. Qed.
Lemma sym_diff_val (V : fname -> idx -> K) g n I : List.length (fst g) = fst n -> List.length I = fst n ->
  (forall l, In l (fst g) -> (l < fst n)%nat) -> wf_n n ->
  nval V (sym_diff g n) I = nval V n I - cj (snd g) (nval V n (permute (fst g) I)).
Proof.
  intros L LI B W. unfold sym_diff. rewrite nadd_val, nscale_val, kc_m1. destruct (snd g); cbn [cj]; rewrite ?nconj_val, relabel0 by assumption; ring.
Qed.
Lemma fst_sym_diff g n : fst (sym_diff g n) = fst n.
Proof. reflexivity. Qed.
Lemma sub0 (x y : K) : x - y = 0 -> x = y.
Proof. intros E. replace x with (x - y + y) by ring. rewrite E. ring. Qed.
Lemma obeys_sound (C D : cdict) H k gs g ts n : symmetric_point C -> kreal H -> H <> 0 ->
  dget op_fields k = Some ts -> fst n = List.length ts -> wf_n n ->
  (forall I, In I (indices_of k) -> coef D k I = nval (venv C H) n I) ->
  dget symmetries k = Some gs -> In g gs -> sym_chk [ee_fierz] k n = true -> sym_arity k n = true -> (k, g) <> ee_fierz -> obeys k g D.
Proof.
  intros (P & S & Q) HR HN T L W VL GS G CH AR NE I HI. unfold sym_chk in CH. rewrite GS in CH. unfold sym_arity in AR. rewrite GS in AR.
  rewrite forallb_forall in CH, AR. specialize (CH g G). specialize (AR g G).
  assert (KM : kmem (k, g) [ee_fierz] = false) by (apply kmem_nIn; intros [X|[]]; congruence). rewrite KM in CH. cbn [orb] in CH.
  apply andb_true_iff in CH as [CH Z]. apply andb_true_iff in CH as [LP B]. apply Nat.eqb_eq in LP. rewrite forallb_forall in B.
  pose proof HI as HI'. rewrite (indices_of_idxs k ts T) in HI'.
  assert (HP : In (permute (fst g) I) (indices_of k)).
  { rewrite (indices_of_idxs k ts T). apply in_idxs. unfold permute. rewrite map_length. split; [lia|]. intros x Hx.
    apply in_map_iff in Hx as (i & <- & _). apply nth_lt3. apply in_idxs in HI'. apply HI'. }
  rewrite (VL I HI), (VL _ HP). apply sub0.
  rewrite <- (sym_diff_val (venv C H) g n I); [| | |intros l Hl; apply Nat.ltb_lt; now apply B|exact W].
  - apply (is_zero_sound C H S HR HN Q); [exact Z|exact AR|]. rewrite fst_sym_diff, L. exact HI'.
  - exact LP.
  - apply idxs_length in HI'. congruence.
Qed.
(* terms with a vanishing factor *)
Lemma drop_val (C : cdict) H ks n I : (forall k J, In k ks -> In J (indices_of k) -> coef C k J = 0) ->
  arity_chk "" n = true -> (forall x, In x I -> (x < 3)%nat) -> nval (venv C H) (drop ks n) I = nval (venv C H) n I.
Proof.
  intros Z AR HI. unfold nval, drop. cbn [snd]. unfold arity_chk in AR. rewrite forallb_forall in AR.
  assert (G : forall l, (forall m, In m l -> forallb arity_ok (m_f m) = true) ->
    ksum (map (fun m => mval (venv C H) m I) (filter (fun m => negb (has_fac ks m)) l)) = ksum (map (fun m => mval (venv C H) m I) l)).
  { induction l as [|m l IH]; intros A; [reflexivity|]. cbn [filter map]. rewrite ksum_cons. rewrite <- IH by (intros; apply A; now right).
    destruct (has_fac ks m) eqn:F; cbn [negb]; [|cbn [map]; now rewrite ksum_cons].
    assert (M : mval (venv C H) m I = 0).
    { unfold mval. rewrite ksum_zero; [ring|]. intros x Hx. unfold has_fac in F. apply existsb_exists in F as (f & Hf & F).
      destruct (fst (fst f)) as [k| | |] eqn:NM; try discriminate. apply kmem_In in F.
      assert (FV : fval (venv C H) (I ++ x) f = 0).
      { specialize (A m (or_introl eq_refl)). rewrite forallb_forall in A. 
        destruct (fac_index f (I ++ x) (A f Hf)) with (k := k) as [_ IN]; [|exact NM|].
        - intros v Hv. apply in_app_iff in Hv as [Hv|Hv]; [now apply HI|]. apply in_idxs in Hx. now apply Hx.
        - specialize (Z k _ F IN). unfold fval. rewrite NM. cbn [venv]. unfold coef in Z. rewrite Z. destruct (snd (fst f)); [apply kconj_0|reflexivity]. }
      apply in_split in Hf as (l1 & l2 & ->). rewrite map_app, kprod_app. cbn [map]. rewrite kprod_cons, FV. ring. }
    rewrite M. ring. }
  apply G. exact AR.
Qed.
Lemma qqql_sound (C D : cdict) H n : symmetric_point C -> kreal H -> H <> 0 ->
  fst n = 4%nat -> wf_n n -> (forall I, In I (indices_of "qqql") -> coef D "qqql" I = nval (venv C H) n I) ->
  (forall k J, In k ["duql"; "qque"] -> In J (indices_of k) -> coef C k J = 0) ->
  arity_chk "" n = true -> qqql_chk "qqql" n = true -> qqql_symmetric D.
Proof.
  intros (P & S & Q) HR HN L W VL Z AR CH p r s t HI. unfold qqql_chk in CH. cbn [String.eqb Ascii.eqb Bool.eqb] in CH.
  apply andb_true_iff in CH as [CH AC]. set (n' := drop ["duql"; "qque"] n) in *.
  assert (T : dget op_fields "qqql" = Some [pln Fq; pln Fq; pln Fq; pln Fl]) by reflexivity.
  rewrite (indices_of_idxs _ _ T) in HI. change (List.length [pln Fq; pln Fq; pln Fq; pln Fl]) with 4%nat in HI.
  assert (B : forall x, In x [p; r; s; t] -> (x < 3)%nat) by (apply in_idxs in HI; apply HI).
  assert (VD : forall a b c d, In a [p; r; s; t] -> In b [p; r; s; t] -> In c [p; r; s; t] -> In d [p; r; s; t] ->
     coef D "qqql" [a; b; c; d] = nval (venv C H) n' [a; b; c; d]).
  { intros a b c d Ha Hb Hc Hd. assert (B4 : forall x, In x [a; b; c; d] -> (x < 3)%nat) by (intros x [<-|[<-|[<-|[<-|[]]]]]; auto).
    rewrite VL by (rewrite (indices_of_idxs _ _ T); apply in_idxs; split; [reflexivity|exact B4]).
    symmetry. apply drop_val; assumption. }
  assert (W' : wf_n n') by (intros m Hm; apply filter_In in Hm as [Hm _]; exact (W m Hm)).
  assert (L' : fst n' = 4%nat) by exact L.
  pose proof (is_zero_sound C H S HR HN Q (qqql_diff n') CH AC [p; r; s; t]) as E.
  assert (FQ : fst (qqql_diff n') = 4%nat) by exact L. rewrite FQ in E. specialize (E HI).
  unfold qqql_diff in E. rewrite !nadd_val, nscale_val, nadd_val, kc_m1 in E.
  rewrite <- L' in E at 1 2 3.
  assert (RB : forall q, In q [[1; 0; 2; 3]; [2; 0; 1; 3]; [2; 1; 0; 3]]%nat -> nval (venv C H) (nrelabel q (fst n') 0 n') [p; r; s; t] = nval (venv C H) n' (permute q [p; r; s; t])).
  { intros q Hq. apply relabel0; rewrite ?L'; try assumption; destruct Hq as [<-|[<-|[<-|[]]]]; try reflexivity;
      intros l [<-|[<-|[<-|[<-|[]]]]]; lia. }
  rewrite L' in RB. rewrite ?L' in E. rewrite (RB _ (or_introl eq_refl)), (RB _ (or_intror (or_introl eq_refl))), (RB _ (or_intror (or_intror (or_introl eq_refl)))) in E.
  cbn [permute map nth] in E. rewrite !VD by (cbn; auto 6). apply sub0. rewrite <- E. ring.
Qed.
End Use.
