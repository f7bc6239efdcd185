(* Entries of the arrays computed by the tree-level matching formulas: an evaluator for single
   entries and the proof that the program computes arrays with these entries. *)
From Coq Require Import List Bool ZArith Arith Lia String Ascii.
From Verif Require Import PyBase Num SymModel EftModel EftProofs NpModel NpProofs BetaSpec BetaModel.
Import ListNotations.
Local Open Scope string_scope.
Local Open Scope list_scope.

Section Elem.
Context {K : StarField}.
Local Open Scope K_scope.
Add Field KFte : (k_field K).
Notation cdict := (dict string (cval K)).
(* the ranks and the entries of the coefficients C[k] and of the variables *)
Variables (ck lk : string -> option nat) (cf lf : string -> idx -> K).
Variable nz : string -> bool.      (* variables that are not zero *)

Definition pick (out ls : list ascii) (I : idx) : idx := map (fun c => nth (pos_of c out) I 0%nat) ls.
Definition ein_ok (s : string) (rs : list nat) : option nat :=
  let (ins, out) := parse_spec s in
  if forallb (fun c => kmem c (List.concat ins)) out && knodup out && Nat.eqb (List.length (summed_letters ins out)) 0
     && keqb (map (@List.length ascii) ins) rs then Some (List.length out) else None.
Fixpoint nzx (e : ex) : bool :=
  match e with
  | ENum n => negb (Z.eqb n 0)
  | EV x => nz x
  | EMul a b => nzx a && nzx b
  | EPow a _ => nzx a
  | _ => false
  end.
Fixpoint rank_ex (e : ex) : option nat :=
  match e with
  | ENum _ => Some 0%nat
  | EC k => ck k
  | EV x => lk x
  | EAdd a b | ESub a b => match rank_ex a, rank_ex b with Some x, Some y => if Nat.eqb x y then Some x else None | _, _ => None end
  | ENeg a => rank_ex a
  | EMul a b => match rank_ex a, rank_ex b with Some O, Some y => Some y | Some x, Some O => Some x | _, _ => None end
  | EDiv a b => match rank_ex a, rank_ex b with Some x, Some O => if nzx b then Some x else None | _, _ => None end
  | EPow a _ => match rank_ex a with Some O => Some O | _ => None end
  | EEin1 s a => match rank_ex a with Some x => ein_ok s [x] | None => None end
  | EEin2 s a b => match rank_ex a, rank_ex b with Some x, Some y => ein_ok s [x; y] | _, _ => None end
  | _ => None
  end.
Fixpoint elem (e : ex) (I : idx) : K :=
  match e with
  | ENum n => kZ n
  | EC k => cf k I
  | EV x => lf x I
  | EAdd a b => elem a I + elem b I
  | ESub a b => elem a I - elem b I
  | ENeg a => - elem a I
  | EMul a b => (match rank_ex a with Some O => elem a [] | _ => elem a I end) *
                (match rank_ex b with Some O => elem b [] | _ => elem b I end)
  | EDiv a b => elem a I / elem b []
  | EPow a n => kpow (elem a []) n
  | EEin1 s a => let (ins, out) := parse_spec s in elem a (pick out (nth 0 ins []) I)
  | EEin2 s a b => let (ins, out) := parse_spec s in elem a (pick out (nth 0 ins []) I) * elem b (pick out (nth 1 ins []) I)
  | _ => 0
  end.

Variables C L : cdict.
Hypothesis HC : forall k r, ck k = Some r -> exists v, dget C k = Some v /\ rep v r (cf k).
Hypothesis HL : forall x r, lk x = Some r -> exists v, dget L x = Some v /\ rep v r (lf x).
Hypothesis HN : forall x, nz x = true -> lf x [] <> 0.

Lemma kpow_neq0 (a : K) n : a <> 0 -> kpow a n <> 0.
Proof. intros A. induction n as [|n IH]; cbn [kpow]; [apply k_1_neq_0|]. now apply kmul_neq_0. Qed.
Lemma kZ_neq0 n : n <> 0%Z -> kZ n <> (0 : K).
Proof. intros N E. apply N. exact (kZ_inj0 n E). Qed.
Lemma nzx_ok e : nzx e = true -> rank_ex e = Some 0%nat -> elem e [] <> 0.
Proof.
  induction e; cbn [nzx rank_ex elem]; intros H R; try discriminate.
  - apply kZ_neq0. now apply negb_true_iff, Z.eqb_neq in H.
  - now apply HN.
  - apply andb_true_iff in H as [H1 H2]. destruct (rank_ex e1) as [[|]|], (rank_ex e2) as [[|]|]; try discriminate.
    apply kmul_neq_0; auto.
  - destruct (rank_ex e) as [[|]|]; try discriminate. apply kpow_neq0. auto.
Qed.
Lemma nth_map_out out ls I : map (fun c => nth (pos_of c (out ++ [])) (I ++ []) 0%nat) ls = pick out ls I.
Proof. unfold pick. now rewrite !app_nil_r. Qed.
Lemma ein_ok_rep s rs r (ops : list (cval K)) (fs : list (idx -> K)) : ein_ok s rs = Some r ->
  (forall ins out, parse_spec s = (ins, out) -> map (@List.length ascii) ins = rs -> ops_ok ins ops fs) ->
  exists u, np_einsum s ops = Ok u /\ rep u r (fun I => let (ins, out) := parse_spec s in ein_fun (out ++ []) (I ++ []) ins fs).
Proof.
  unfold ein_ok. destruct (parse_spec s) as [ins out] eqn:P. intros H OK.
  destruct (forallb _ out && knodup out && _ && _) eqn:CK; [|discriminate]. injection H as <-.
  apply andb_true_iff in CK as [CK C3]. apply andb_true_iff in CK as [CK C2].
  destruct (keqb_spec (map (@List.length ascii) ins) rs) as [E|]; [|discriminate].
  destruct (rep_einsum s ins out ops fs P CK (OK ins out eq_refl E)) as (u & U & R). exists u. split; [exact U|].
  eapply rep_ext; [exact R|]. intros I HI. apply Nat.eqb_eq in C2. destruct (summed_letters ins out) as [|]; [|discriminate C2].
  cbn [List.length]. rewrite idxs_0. cbn [map]. unfold ksum. cbn [fold_right]. ring.
Qed.

Lemma eval_elem e : forall r, rank_ex e = Some r -> exists v, eval C L e = Ok v /\ rep v r (elem e).
Proof.
  induction e; cbn [rank_ex]; intros r R; try discriminate.
  - injection R as <-. exists (CNum (kZ n)). split; [reflexivity|]. now apply rep_num.
  - destruct (HC _ _ R) as (v & G & P). exists v. cbn [eval]. unfold lookup. rewrite G. auto.
  - destruct (HL _ _ R) as (v & G & P). exists v. cbn [eval]. unfold lookup. rewrite G. auto.
  - destruct (rank_ex e1) as [x|], (rank_ex e2) as [y|]; try discriminate. destruct (Nat.eqb_spec x y) as [->|]; [|discriminate].
    injection R as <-. destruct (IHe1 _ eq_refl) as (v1 & E1 & R1), (IHe2 _ eq_refl) as (v2 & E2 & R2).
    destruct (rep_map2 kadd _ _ _ _ _ R1 R2) as (u & U & RU). exists u. cbn [eval]. rewrite E1, E2. cbn [bind]. auto.
  - destruct (rank_ex e1) as [x|], (rank_ex e2) as [y|]; try discriminate. destruct (Nat.eqb_spec x y) as [->|]; [|discriminate].
    injection R as <-. destruct (IHe1 _ eq_refl) as (v1 & E1 & R1), (IHe2 _ eq_refl) as (v2 & E2 & R2).
    destruct (rep_map2 ksub _ _ _ _ _ R1 R2) as (u & U & RU). exists u. cbn [eval]. rewrite E1, E2. cbn [bind]. auto.
  - destruct (IHe _ R) as (v & E1 & R1). exists (np_neg v). cbn [eval]. rewrite E1. split; [reflexivity|]. exact (rep_neg _ _ _ R1).
  - destruct (rank_ex e1) as [x|] eqn:X1; [|discriminate]. destruct (rank_ex e2) as [y|] eqn:X2; [|destruct x; discriminate].
    destruct (IHe1 _ eq_refl) as (v1 & E1 & R1), (IHe2 _ eq_refl) as (v2 & E2 & R2). cbn [eval]. rewrite E1, E2. cbn [bind].
    destruct x as [|x].
    + injection R as <-. destruct (rep_scale_l kmul _ _ _ _ _ R1 R2) as (u & U & RU). exists u. split; [exact U|].
      eapply rep_ext; [exact RU|]. intros I HI. cbn [elem]. rewrite X1, X2. destruct y; [|reflexivity].
      destruct HI as [<-|[]]. reflexivity.
    + destruct y as [|y]; [|discriminate]. injection R as <-. destruct (rep_scale_r kmul _ _ _ _ _ R1 R2) as (u & U & RU).
      exists u. split; [exact U|]. eapply rep_ext; [exact RU|]. intros I HI. cbn [elem]. now rewrite X1, X2.
  - destruct (rank_ex e1) as [x|] eqn:X1; [|discriminate]. destruct (rank_ex e2) as [[|y]|] eqn:X2; try discriminate.
    destruct (nzx e2) eqn:N; [|discriminate]. injection R as <-. pose proof (nzx_ok e2 N X2) as NZ.
    destruct (IHe1 _ eq_refl) as (v1 & E1 & R1), (IHe2 _ eq_refl) as (v2 & E2 & R2). cbn [eval]. rewrite E1, E2. cbn [bind].
    destruct (rep_scale_r kdiv _ _ _ _ _ R1 R2) as (u & U & RU). apply rep_0 in R2 as ->. cbn [np_div].
    destruct (kdec_spec K (elem e2 []) 0) as [Z|_]; [contradiction|]. exists u. auto.
  - destruct (rank_ex e) as [[|x]|] eqn:X1; try discriminate. injection R as <-. destruct (IHe _ eq_refl) as (v1 & E1 & R1).
    cbn [eval]. rewrite E1. apply rep_0 in R1 as ->. eexists. split; [reflexivity|]. cbn [np_pow]. now apply rep_num.
  - destruct (rank_ex e) as [x|] eqn:X1; [|discriminate]. destruct (IHe _ eq_refl) as (v1 & E1 & R1).
    cbn [eval]. rewrite E1. cbn [bind]. destruct (ein_ok_rep s [x] r [v1] [elem e] R) as (u & U & RU).
    { intros ins out _ M. destruct ins as [|a [|]]; try discriminate M. injection M as M. cbn [ops_ok]. rewrite M. auto. }
    exists u. split; [exact U|]. eapply rep_ext; [exact RU|]. intros I HI. cbn [elem]. unfold ein_ok in R. destruct (parse_spec s) as [ins out].
    destruct (_ && _) eqn:CK in R; [|discriminate]. apply andb_true_iff in CK as [_ M].
    destruct (keqb_spec (map (@List.length ascii) ins) [x]) as [E|]; [|discriminate].
    destruct ins as [|a [|]]; try discriminate E. cbn [nth ein_fun]. rewrite nth_map_out. ring.
  - destruct (rank_ex e1) as [x|] eqn:X1; [|discriminate]. destruct (rank_ex e2) as [y|] eqn:X2; [|discriminate].
    destruct (IHe1 _ eq_refl) as (v1 & E1 & R1), (IHe2 _ eq_refl) as (v2 & E2 & R2). cbn [eval]. rewrite E1, E2. cbn [bind].
    destruct (ein_ok_rep s [x; y] r [v1; v2] [elem e1; elem e2] R) as (u & U & RU).
    { intros ins out _ M. destruct ins as [|a [|b [|]]]; try discriminate M. injection M as M1 M2. cbn [ops_ok]. rewrite M1, M2. auto. }
    exists u. split; [exact U|]. eapply rep_ext; [exact RU|]. intros I HI. cbn [elem]. unfold ein_ok in R. destruct (parse_spec s) as [ins out].
    destruct (_ && _) eqn:CK in R; [|discriminate]. apply andb_true_iff in CK as [_ M].
    destruct (keqb_spec (map (@List.length ascii) ins) [x; y]) as [E|]; [|discriminate].
    destruct ins as [|a [|b [|]]]; try discriminate E. cbn [nth ein_fun]. rewrite !nth_map_out. ring.
Qed.
End Elem.
