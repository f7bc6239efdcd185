(* Every expression of beta.py is a sum of monomials: a number times a product of entries
   of the parameters with some indices summed over.  Here: the normal form, the
   normaliser, and the proof that it computes what the program computes. *)
From Coq Require Import List Bool ZArith QArith Arith Lia String Ascii.
From Verif Require Import PyBase Num SymModel EftModel EftProofs NpModel NpProofs BetaModel.
Import ListNotations.
Local Open Scope list_scope.

(* a factor of a monomial: a parameter C[k], the identity matrix, HIGHSCALE or its inverse *)
Inductive fname := FC (k : string) | FI3 | FH | FHinv.
(* name, conjugated?, index letters; the letters 0..r-1 are the indices of the result
   (of rank r), the letters r.. r+b-1 are summed over *)
Definition fac : Type := (fname * bool * list nat)%type.
Record mono := mkM { m_re : Q; m_im : Q; m_b : nat; m_f : list fac }.
Definition nform : Type := (nat * list mono)%type.

Definition map_letters (g : nat -> nat) (f : fac) : fac := (fst f, map g (snd f)).
Definition mouter (r1 r2 : nat) (m1 m2 : mono) : mono :=
  mkM (Qred (m_re m1 * m_re m2 - m_im m1 * m_im m2)) (Qred (m_re m1 * m_im m2 + m_im m1 * m_re m2))
      (m_b m1 + m_b m2)
      (map (map_letters (fun l => if (l <? r1)%nat then l else (l + r2)%nat)) (m_f m1) ++
       map (map_letters (fun l => if (l <? r2)%nat then (l + r1)%nat else (l + r1 + m_b m1)%nat)) (m_f m2)).
Definition nouter (n1 n2 : nform) : nform :=
  ((fst n1 + fst n2)%nat, flat_map (fun m1 => map (mouter (fst n1) (fst n2) m1) (snd n2)) (snd n1)).
Definition mrelabel (r : nat) (ren : list nat) (r2 nb : nat) (m : mono) : mono :=
  mkM (m_re m) (m_im m) (m_b m + nb)
      (map (map_letters (fun l => if (l <? r)%nat then nth l ren 0%nat else (l - r + (r2 + nb))%nat)) (m_f m)).
Definition nrelabel (ren : list nat) (r2 nb : nat) (n : nform) : nform := (r2, map (mrelabel (fst n) ren r2 nb) (snd n)).
Definition mscale (a b : Q) (m : mono) : mono :=
  mkM (Qred (a * m_re m - b * m_im m)) (Qred (a * m_im m + b * m_re m)) (m_b m) (m_f m).
Definition nscale (a b : Q) (n : nform) : nform := (fst n, map (mscale a b) (snd n)).
Definition mconj (m : mono) : mono :=
  mkM (m_re m) (Qred (- m_im m)) (m_b m) (map (fun f => ((fst (fst f), negb (snd (fst f))), snd f)) (m_f m)).
Definition nconj (n : nform) : nform := (fst n, map mconj (snd n)).
Definition nadd (n1 n2 : nform) : nform := (fst n1, snd n1 ++ snd n2).
Definition nnum (a b : Q) : nform := (0%nat, [mkM a b 0 []]).
Definition nvar (f : fname) (r : nat) : nform := (r, [mkM 1 0 0 [(f, false, seq 0 r)]]).
Fixpoint npow (n : nform) (k : nat) : nform := match k with O => nnum 1 0 | Datatypes.S k' => nouter n (npow n k') end.
Definition nein (spec : string) (n : nform) : option nform :=
  let (ins, out) := parse_spec spec in
  let summed := summed_letters ins out in
  if Nat.eqb (fst n) (List.length (List.concat ins)) then
    if forallb (fun c => kmem c (List.concat ins)) out && knodup out then
      Some (nrelabel (map (fun c => pos_of c (out ++ summed)) (List.concat ins)) (List.length out) (List.length summed) n)
    else None
  else None.
Definition ein_ranks (spec : string) : list nat := map (@List.length ascii) (fst (parse_spec spec)).

Definition obind {A B} (o : option A) (f : A -> option B) : option B := match o with Some x => f x | None => None end.

Section Norm.
Variable rk : string -> option nat.     (* the rank of each parameter *)
Fixpoint norm (N : dict string nform) (e : ex) : option nform :=
  match e with
  | ENum n => Some (nnum (n # 1) 0)
  | EIm n => Some (nnum 0 (n # 1))
  | EC k => obind (rk k) (fun r => Some (nvar (FC k) r))
  | EV x => dget N x
  | EAdd a b => obind (norm N a) (fun x => obind (norm N b) (fun y =>
      if Nat.eqb (fst x) (fst y) then Some (nadd x y) else None))
  | ESub a b => obind (norm N a) (fun x => obind (norm N b) (fun y =>
      if Nat.eqb (fst x) (fst y) then Some (nadd x (nscale (-1) 0 y)) else None))
  | ENeg a => obind (norm N a) (fun x => Some (nscale (-1) 0 x))
  | EMul a b => obind (norm N a) (fun x => obind (norm N b) (fun y =>
      if (Nat.eqb (fst x) 0 || Nat.eqb (fst y) 0)%bool then Some (nouter x y) else None))
  | EDiv a (ENum n) => if Z.eqb n 0 then None else obind (norm N a) (fun x => Some (nscale (Qred (/ (n # 1))) 0 x))
  | EDiv a (EPow (EV x) k) =>
      match dget N x with
      | Some (O, [mkM q q' O [(FH, false, [])]]) =>
          if (Qeq_bool q 1 && Qeq_bool q' 0)%bool
          then obind (norm N a) (fun n => Some (nouter n (npow (nvar FHinv 0) k))) else None
      | _ => None
      end
  | EDiv _ _ => None
  | EPow a k => obind (norm N a) (fun x => if Nat.eqb (fst x) 0 then Some (npow x k) else None)
  | EMat a b => obind (norm N a) (fun x => obind (norm N b) (fun y =>
      if (Nat.eqb (fst x) 2 && Nat.eqb (fst y) 2)%bool then Some (nrelabel [0;2;2;1]%nat 2 1 (nouter x y)) else None))
  | EConj a => obind (norm N a) (fun x => Some (nconj x))
  | ET a => obind (norm N a) (fun x => if Nat.eqb (fst x) 2 then Some (nrelabel [1;0]%nat 2 0 x) else None)
  | ETrace a => obind (norm N a) (fun x => if Nat.eqb (fst x) 2 then Some (nrelabel [0;0]%nat 0 1 x) else None)
  | EEin1 s a => obind (norm N a) (fun x => if keqb (ein_ranks s) [fst x] then nein s x else None)
  | EEin2 s a b => obind (norm N a) (fun x => obind (norm N b) (fun y =>
      if keqb (ein_ranks s) [fst x; fst y] then nein s (nouter x y) else None))
  | EEin3 s a b c => obind (norm N a) (fun x => obind (norm N b) (fun y => obind (norm N c) (fun z =>
      if keqb (ein_ranks s) [fst x; fst y; fst z] then nein s (nouter x (nouter y z)) else None)))
  end.
(* the normal forms of all Beta[k] (and of the locals N) *)
Fixpoint norm_stmts (newphys : bool) (p : list stmt) (N B : dict string nform) : option (dict string nform) :=
  match p with
  | [] => Some B
  | SLocal x e :: p' => obind (norm N e) (fun n => norm_stmts newphys p' (dset N x n) B)
  | SBeta k e :: p' => obind (norm N e) (fun n => norm_stmts newphys p' N (dset B k n))
  | SReturnUnlessNP :: p' => if newphys then norm_stmts newphys p' N B else Some B
  end.
Definition norm_locals : dict string nform := [("HIGHSCALE"%string, nvar FH 0); ("I3"%string, nvar FI3 2)].
Definition norm_beta (newphys : bool) (p : list stmt) : option (dict string nform) := norm_stmts newphys p norm_locals [].
End Norm.

Section Sem.
Context {K : StarField}.
Local Open Scope K_scope.
Add Field KFbn : (k_field K).
Notation cdict := (dict string (cval K)).
Variable V : fname -> idx -> K.
Local Notation kQ := (@kQ K).

Definition kc (a b : Q) : K := kQ a + kQ b * ki.
Definition fval (z : idx) (f : fac) : K :=
  let x := V (fst (fst f)) (map (fun l => nth l z 0%nat) (snd f)) in if snd (fst f) then x^* else x.
Definition mval (m : mono) (I : idx) : K :=
  kc (m_re m) (m_im m) * ksum (map (fun x => kprod (map (fval (I ++ x)) (m_f m))) (idxs (m_b m))).
Definition nval (n : nform) (I : idx) : K := ksum (map (fun m => mval m I) (snd n)).

(* all letters are in range *)
Definition wf_mono (r : nat) (m : mono) : Prop := forall f l, In f (m_f m) -> In l (snd f) -> (l < r + m_b m)%nat.
Definition wf_n (n : nform) : Prop := forall m, In m (snd n) -> wf_mono (fst n) m.

Lemma kQ_red' q : kQ (Qred q) = kQ q. Proof. apply kQ_Qeq, Qred_correct. Qed.
Lemma kc_mul a b c d : kc (Qred (a * c - b * d)) (Qred (a * d + b * c)) = kc a b * kc c d.
Proof.
  unfold kc. rewrite !kQ_red'. unfold Qminus. rewrite !kQ_add, kQ_opp, !kQ_mul.
  pose proof (ki_sq K) as S. assert (E : forall x y : K, x * y * (ki * ki) = - (x * y)) by (intros; rewrite S; ring).
  replace ((kQ a + kQ b * ki) * (kQ c + kQ d * ki)) with (kQ a * kQ c + (kQ a * kQ d + kQ b * kQ c) * ki + kQ b * kQ d * (ki * ki)) by ring.
  rewrite E. ring.
Qed.
Lemma kc_conj a b : kc a (Qred (- b)) = (kc a b)^*.
Proof. unfold kc. rewrite kQ_red', kQ_opp, kconj_add, kconj_mul, kconj_i, !kconj_Q. ring. Qed.
Lemma kc_1 : kc 1 0 = 1. Proof. unfold kc. rewrite kQ_0, kQ_1. ring. Qed.

Lemma fval_map_letters g f z z' : (forall l, In l (snd f) -> nth (g l) z' 0%nat = nth l z 0%nat) ->
  fval z' (map_letters g f) = fval z f.
Proof.
  intros E. unfold fval, map_letters. cbn [fst snd]. rewrite map_map.
  assert (M : map (fun x => nth (g x) z' 0%nat) (snd f) = map (fun l => nth l z 0%nat) (snd f)) by (apply map_ext_in, E).
  now rewrite M.
Qed.
Lemma nth_app_l {A} (d : A) (a b : list A) l : (l < List.length a)%nat -> nth l (a ++ b) d = nth l a d.
Proof. intros. now apply app_nth1. Qed.

Lemma mouter_val r1 r2 m1 m2 I J : List.length I = r1 -> List.length J = r2 -> wf_mono r1 m1 -> wf_mono r2 m2 ->
  mval (mouter r1 r2 m1 m2) (I ++ J) = mval m1 I * mval m2 J.
Proof.
  intros LI LJ W1 W2. unfold mval, mouter. cbn [m_re m_im m_b m_f]. rewrite kc_mul, ksum_idxs_app.
  transitivity (kc (m_re m1) (m_im m1) * kc (m_re m2) (m_im m2) *
    (ksum (map (fun x => kprod (map (fval (I ++ x)) (m_f m1))) (idxs (m_b m1))) *
     ksum (map (fun x => kprod (map (fval (J ++ x)) (m_f m2))) (idxs (m_b m2))))); [|ring].
  f_equal. rewrite ksum_mul_ksum. apply ksum_ext. intros x Hx. apply ksum_ext. intros y Hy.
  apply idxs_length in Hx, Hy. rewrite map_app, kprod_app, !map_map. f_equal; f_equal; apply map_ext_in; intros f Hf;
    apply fval_map_letters; intros l Hl.
  - specialize (W1 f l Hf Hl). destruct (Nat.ltb_spec l r1) as [L|L].
    + rewrite <- app_assoc. rewrite !app_nth1 by lia. reflexivity.
    + rewrite <- app_assoc. rewrite (app_nth2 I) by lia. rewrite (app_nth2 J) by lia. rewrite (app_nth2 I) by lia.
      rewrite app_nth1 by lia. f_equal. lia.
  - specialize (W2 f l Hf Hl). destruct (Nat.ltb_spec l r2) as [L|L].
    + rewrite <- app_assoc, (app_nth2 I) by lia. rewrite !app_nth1 by lia. f_equal. lia.
    + rewrite <- app_assoc, (app_nth2 I), (app_nth2 J), (app_nth2 x), (app_nth2 J) by lia. f_equal. lia.
Qed.
Lemma mouter_wf r1 r2 m1 m2 : wf_mono r1 m1 -> wf_mono r2 m2 -> wf_mono (r1 + r2) (mouter r1 r2 m1 m2).
Proof.
  intros W1 W2 f l Hf Hl. cbn [mouter m_b m_f] in *. apply in_app_iff in Hf as [Hf|Hf];
    apply in_map_iff in Hf as (g & <- & Hg); apply in_map_iff in Hl as (l' & <- & Hl').
  - specialize (W1 g l' Hg Hl'). destruct (Nat.ltb_spec l' r1); lia.
  - specialize (W2 g l' Hg Hl'). destruct (Nat.ltb_spec l' r2); lia.
Qed.
Lemma nouter_val n1 n2 I J : List.length I = fst n1 -> List.length J = fst n2 -> wf_n n1 -> wf_n n2 ->
  nval (nouter n1 n2) (I ++ J) = nval n1 I * nval n2 J.
Proof.
  intros LI LJ W1 W2. unfold nval, nouter. cbn [snd]. rewrite ksum_flat_map, ksum_mul_ksum.
  apply ksum_ext. intros m1 H1. rewrite map_map. apply ksum_ext. intros m2 H2. apply mouter_val; auto.
Qed.
Lemma nouter_wf n1 n2 : wf_n n1 -> wf_n n2 -> wf_n (nouter n1 n2).
Proof.
  intros W1 W2 m H. cbn [nouter snd fst] in *. apply in_flat_map in H as (m1 & H1 & H).
  apply in_map_iff in H as (m2 & <- & H2). apply mouter_wf; auto.
Qed.
Lemma mrelabel_val r ren r2 nb m O : List.length ren = r -> List.length O = r2 -> (forall l, In l ren -> (l < r2 + nb)%nat) ->
  wf_mono r m ->
  mval (mrelabel r ren r2 nb m) O =
  ksum (map (fun s => mval m (map (fun l => nth l (O ++ s) 0%nat) ren)) (idxs nb)).
Proof.
  intros LR LO A W. unfold mval, mrelabel. cbn [m_re m_im m_b m_f]. rewrite ksum_scale. f_equal.
  rewrite (Nat.add_comm (m_b m) nb), ksum_idxs_app. apply ksum_ext. intros s Hs. apply ksum_ext. intros x Hx.
  apply idxs_length in Hs, Hx. rewrite map_map. f_equal. apply map_ext_in. intros f Hf. apply fval_map_letters.
  intros l Hl. specialize (W f l Hf Hl). destruct (Nat.ltb_spec l r) as [L|L].
  - rewrite (app_nth1 (map _ ren)) by (rewrite map_length; lia).
    rewrite app_assoc, app_nth1 by (rewrite app_length, LO, Hs; apply A, nth_In; lia).
    rewrite (nth_indep (map _ ren) 0%nat ((fun k => nth k (O ++ s) 0%nat) 0%nat)) by (rewrite map_length; lia).
    rewrite (map_nth (fun k => nth k (O ++ s) 0%nat)). reflexivity.
  - rewrite (app_nth2 (map _ ren)) by (rewrite map_length; lia). rewrite map_length.
    rewrite app_assoc, app_nth2 by (rewrite app_length; lia). rewrite app_length. f_equal. lia.
Qed.
Lemma mrelabel_wf r ren r2 nb m : List.length ren = r -> (forall l, In l ren -> (l < r2 + nb)%nat) ->
  wf_mono r m -> wf_mono r2 (mrelabel r ren r2 nb m).
Proof.
  intros LR A W f l Hf Hl. cbn [mrelabel m_b m_f] in *. apply in_map_iff in Hf as (g & <- & Hg).
  apply in_map_iff in Hl as (l' & <- & Hl'). specialize (W g l' Hg Hl').
  destruct (Nat.ltb_spec l' r); [|lia]. assert (X : (nth l' ren 0 < r2 + nb)%nat) by (apply A, nth_In; lia). lia.
Qed.
Lemma nrelabel_val ren r2 nb n O : List.length ren = fst n -> List.length O = r2 -> (forall l, In l ren -> (l < r2 + nb)%nat) ->
  wf_n n ->
  nval (nrelabel ren r2 nb n) O = ksum (map (fun s => nval n (map (fun l => nth l (O ++ s) 0%nat) ren)) (idxs nb)).
Proof.
  intros LR LO A W. unfold nval, nrelabel. cbn [snd]. rewrite map_map, ksum_swap. apply ksum_ext.
  intros m Hm. apply mrelabel_val; auto.
Qed.
Lemma nrelabel_wf ren r2 nb n : List.length ren = fst n -> (forall l, In l ren -> (l < r2 + nb)%nat) ->
  wf_n n -> wf_n (nrelabel ren r2 nb n).
Proof. intros LR A W m H. cbn [nrelabel snd fst] in *. apply in_map_iff in H as (m' & <- & H'). apply mrelabel_wf; auto. Qed.
Lemma nscale_val a b n I : nval (nscale a b n) I = kc a b * nval n I.
Proof.
  unfold nval, nscale. cbn [snd]. rewrite map_map, <- ksum_scale. apply ksum_ext. intros m _.
  unfold mval, mscale. cbn [m_re m_im m_b m_f]. rewrite kc_mul. ring.
Qed.
Lemma nscale_wf a b n : wf_n n -> wf_n (nscale a b n).
Proof. intros W m H. cbn [nscale snd fst] in *. apply in_map_iff in H as (m' & <- & H'). exact (W m' H'). Qed.
Lemma fval_conj z f : fval z ((fst (fst f), negb (snd (fst f))), snd f) = (fval z f)^*.
Proof. unfold fval. cbn [fst snd]. destruct (snd (fst f)); cbn [negb]; [now rewrite kconj_conj|reflexivity]. Qed.
Lemma nconj_val n I : nval (nconj n) I = (nval n I)^*.
Proof.
  unfold nval, nconj. cbn [snd]. rewrite map_map, ksum_conj. apply ksum_ext. intros m _.
  unfold mval, mconj. cbn [m_re m_im m_b m_f]. rewrite kc_conj, kconj_mul, ksum_conj. f_equal. apply ksum_ext.
  intros x _. rewrite kprod_conj, map_map. f_equal. apply map_ext. intros f. apply fval_conj.
Qed.
Lemma nconj_wf n : wf_n n -> wf_n (nconj n).
Proof.
  intros W m H f l Hf Hl. cbn [nconj snd fst] in *. apply in_map_iff in H as (m' & <- & H').
  cbn [mconj m_b m_f] in *. apply in_map_iff in Hf as (g & <- & Hg). exact (W m' H' g l Hg Hl).
Qed.
Lemma nadd_val n1 n2 I : nval (nadd n1 n2) I = nval n1 I + nval n2 I.
Proof. unfold nval, nadd. cbn [snd]. now rewrite map_app, ksum_app. Qed.
Lemma nadd_wf n1 n2 : fst n1 = fst n2 -> wf_n n1 -> wf_n n2 -> wf_n (nadd n1 n2).
Proof. intros E W1 W2 m H. cbn [nadd snd fst] in *. apply in_app_iff in H as [H|H]; [auto|]. rewrite E. auto. Qed.
Lemma nnum_val a b I : nval (nnum a b) I = kc a b.
Proof. unfold nval, nnum, mval. cbn. unfold ksum, kprod. cbn. ring. Qed.
Lemma nnum_wf a b : wf_n (nnum a b).
Proof. intros m [<-|[]] f l []. Qed.
Lemma map_nth_self (I : idx) : map (fun l => nth l I 0%nat) (seq 0 (List.length I)) = I.
Proof.
  induction I as [|x I IH]; [reflexivity|]. cbn [List.length seq map nth]. f_equal.
  rewrite <- IH at 2. rewrite <- seq_shift, map_map. reflexivity.
Qed.
Lemma nvar_val f r I : List.length I = r -> nval (nvar f r) I = V f I.
Proof.
  intros <-. unfold nval, nvar, mval. cbn [snd map m_re m_im m_b m_f]. rewrite idxs_0. cbn [map].
  unfold fval. cbn [fst snd]. rewrite app_nil_r, map_nth_self, kc_1. unfold ksum, kprod. cbn [fold_right]. ring.
Qed.
Lemma nvar_wf f r : wf_n (nvar f r).
Proof. intros m [<-|[]] g l [<-|[]] Hl. cbn [snd fst nvar m_b] in *. apply in_seq in Hl. lia. Qed.
Lemma npow_val n k : fst n = 0%nat -> wf_n n -> fst (npow n k) = 0%nat /\ wf_n (npow n k) /\ nval (npow n k) [] = kpow (nval n []) k.
Proof.
  intros Z W. induction k as [|k (Z' & W' & E)]; cbn [npow kpow].
  - split; [reflexivity|]. split; [apply nnum_wf|]. rewrite nnum_val. apply kc_1.
  - split; [cbn [nouter fst]; lia|]. split; [now apply nouter_wf|].
    change (@nil nat) with (@nil nat ++ @nil nat) at 1. rewrite nouter_val by auto. now rewrite E.
Qed.
End Sem.
