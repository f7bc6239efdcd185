(* Model of the one-loop matching wilson/match/smeft_loop.py (formulas in LoopData.v).

   Numbers are complex numbers over Coq's reals; rounding is not modelled.  The number 0 as a
   denominator is ZeroDivisionError, the logarithm of 0 is ValueError.  ckmutil.ckm.ckm_tree is an
   argument.  The assignments of zeros (lines 120-130) are moved to the end, and the logarithms are
   computed once before the formulas: this changes neither the values nor which inputs raise. *)
From Coq Require Import List Bool ZArith Reals Arith Lia String Ascii.
From Verif Require Import PyBase Num SymModel EftModel NpModel RealC BetaSpec WetModel SmparModel TreeModel LoopSyntax LoopData.
Import ListNotations.
Local Open Scope string_scope.
Local Open Scope list_scope.

Section Generic.
Context {K : StarField}.
Local Open Scope K_scope.
Notation cdict := (dict string (cval K)).
Variable val : base -> K.
Fixpoint mapr {A B} (f : A -> res B) (l : list A) : res (list B) :=
  match l with [] => Ok [] | x :: r => bind (f x) (fun y => bind (mapr f r) (fun ys => Ok (y :: ys))) end.
(* x**n *)
Definition epow (x : K) (n : Z) : res K :=
  match n with
  | Z0 => Ok 1
  | Zpos p => Ok (kpow x (Pos.to_nat p))
  | Zneg p => if kdec x 0 then Err ZeroDivisionError else Ok (1 / kpow x (Pos.to_nat p))
  end.
Definition epowers (l : powers) : res K := rmap kprod (mapr (fun bn => epow (val (fst bn)) (snd bn)) l).
Definition epsum (l : psum) : res K := rmap ksum (mapr (fun t => bind (epowers (snd t)) (fun x => Ok (kZ (fst t) * x))) l).
Definition emono (m : mono) : res K :=
  bind (epowers (fst m)) (fun x => bind (mapr (fun sn => bind (epsum (fst sn)) (fun y => epow y (snd sn))) (snd m)) (fun ys => Ok (x * kprod ys))).
Definition epref (p : pref) : res K :=
  rmap ksum (mapr (fun t => let 'T n d m := t in bind (emono m) (fun x => Ok (kZ n / kZ (Zpos d) * x))) p).

Variable V : cval K.
Variable mass : field -> nat -> K.
Variable C : cdict.
(* smeft_loop.py:9-10,35-37,145 *)
Definition eopnd (o : opnd) : res (cval K) :=
  match o with
  | OC k => getk C k
  | Okd => Ok (np_eye 3)
  | Okt => Ok (CArr [3;3]%nat (fun I => if Nat.eqb (nth 0 I 0%nat) 2 && Nat.eqb (nth 1 I 0%nat) 2 then 1 else 0))
  | OV => Ok V
  | OVd => Ok (np_T (np_conj V))
  | OM f => Ok (CArr [3]%nat (fun I => mass f (nth 0 I 0%nat)))
  | OD f => Ok (CArr [3;3]%nat (fun I => if Nat.eqb (nth 0 I 0%nat) (nth 1 I 0%nat) then mass f (nth 0 I 0%nat) else 0))
  end.
Definition etensor (t : tensor) : res (cval K) := bind (mapr eopnd (snd t)) (np_einsum (fst t)).
Definition egroup (g : group) : res (cval K) :=
  let '(t, w, p) := g in
  bind (epref p) (fun x =>
  bind (match w with Some k => bind (getk C k) (np_mul (CNum x)) | None => Ok (CNum x) end) (fun y =>
  match t with Some t => bind (etensor t) (np_mul y) | None => Ok y end)).
Fixpoint egroups (acc : cval K) (gs : list group) : res (cval K) :=
  match gs with [] => Ok acc | g :: r => bind (egroup g) (fun v => bind (np_add acc v) (fun a => egroups a r)) end.
Definition eassign (gs : list group) : res (cval K) :=
  match gs with [] => Ok (CNum 0) | g :: r => bind (egroup g) (fun v => egroups v r) end.
Fixpoint exec_loop (p : list (string * list group)) (c : cdict) : res cdict :=
  match p with [] => Ok c | (k, gs) :: r => bind (eassign gs) (fun v => exec_loop r (dset c k v)) end.
Definition set_zero (ks : list string) (c : cdict) : cdict := fold_left (fun c k => dset c k zeros4) ks c.
(* c[k] = V @ c[k]    smeft_loop.py:152-153 *)
Definition rot_key (k : string) (c : cdict) : res cdict :=
  bind (getk c k) (fun v => bind (np_matmul V v) (fun w => Ok (dset c k w))).
End Generic.

(* the matching conditions for given values of the variables    smeft_loop.py:43-155 *)
Definition loop_at {K : StarField} (val : base -> K) (V : cval K) (mass : field -> nat -> K) (C : dict string (cval K)) : res (dict string (cval K)) :=
  bind (daggers C) (fun C' =>
  bind (exec_loop val V mass C' loop_prog []) (fun c =>
  bind (rot_key V "dgamma" (set_zero loop_zero c)) (rot_key V "dG"))).

Local Open Scope R_scope.
(* the scalar variables    smeft_loop.py:7-12,21-41 *)
Record lpar := { l_mW : R; l_mZ : R; l_mH : R; l_mt : R; l_vT : R; l_g1 : CR; l_g2 : R; l_g3 : R; l_scale : R }.
Definition lval (s : lpar) (b : base) : CR :=
  match b with
  | BW => rc (l_mW s) | BZ => rc (l_mZ s) | BH => rc (l_mH s) | Bt => rc (l_mt s) | Bv => rc (l_vT s)
  | Bg1 => l_g1 s | Bg2 => rc (l_g2 s) | Bg3 => rc (l_g3 s) | Bpi => rc PI | Br2 => rc (sqrt 2)
  | BNc => rc 3 | Bcf => rc (4 / 3) | BEv => rc 1 | Bi => (0, 1)
  | BlW => rc (ln (l_scale s ^ 2 / l_mW s ^ 2)) | BlZ => rc (ln (l_scale s ^ 2 / l_mZ s ^ 2))
  | BlH => rc (ln (l_scale s ^ 2 / l_mH s ^ 2)) | Blt => rc (ln (l_scale s ^ 2 / l_mt s ^ 2))
  end.
(* log(scale**2/m**2) is defined *)
Definition flog_ok (scale m : R) : res unit :=
  bind (fdiv (scale ^ 2) (m ^ 2)) (fun x => if Rle_dec x 0 then Err ValueError else Ok tt).
Definition loop_pt (s : lpar) (V : cval CR) (mass : field -> nat -> R) (C : cdictR) : res cdictR :=
  bind (flog_ok (l_scale s) (l_mW s)) (fun _ => bind (flog_ok (l_scale s) (l_mZ s)) (fun _ =>
  bind (flog_ok (l_scale s) (l_mH s)) (fun _ => bind (flog_ok (l_scale s) (l_mt s)) (fun _ =>
  loop_at (lval s) V (fun f i => rc (mass f i)) C)))).
Definition mass_names (f : field) : list string :=
  match f with Fu => ["m_u"; "m_c"; "m_t"] | Fd => ["m_d"; "m_s"; "m_b"] | Fe => ["m_e"; "m_mu"; "m_tau"] | _ => [] end.
Definition masses (p : params) (f : field) : res (nat -> R) := bind (mapr (getp p) (mass_names f)) (fun l => Ok (fun i => nth i l 0)).
(* _match_all_array    smeft_loop.py:15-155; the inputs are those of smeft_tree.py *)
Definition loop_raw (ckm : R -> R -> R -> R -> cval CR) (C : cdictR) (p : params) (scale : R) : res cdictR :=
  bind (ew_inputs C p) (fun e =>
  bind (fdiv (2 * e_mW e) (e_vT e)) (fun g2b =>
  bind (masses p Fu) (fun mu => bind (masses p Fd) (fun md => bind (masses p Fe) (fun me =>
  bind (getp p "alpha_s") (fun as_ => bind (fsqrt (4 * PI * as_)) (fun g3 =>
  bind (ckm_of ckm p) (fun V =>
  loop_pt {| l_mW := e_mW e; l_mZ := e_mZ e; l_mH := 125; l_mt := 173; l_vT := e_vT e; l_g1 := e_g1 e; l_g2 := g2b; l_g3 := g3; l_scale := scale |}
    V (fun f => match f with Fu => mu | Fd => md | Fe => me | _ => fun _ => 0 end) C)))))))).
