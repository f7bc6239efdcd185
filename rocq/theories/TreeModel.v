(* Model of the matching from SMEFT to WET: wilson/match/smeft_tree.py (formulas in TreeProg.v),
   rotate_down of wilson/util/wet_jms.py and match_all of wilson/match/smeft.py.

   Numbers are complex numbers over Coq's reals (RealC.v); rounding is not modelled.
   smeft_loop._match_all_array (see LoopModel.v) and ckmutil.ckm.ckm_tree are arguments
   (arbitrary functions).  math.sqrt of a number with an imaginary part raises TypeError
   (also for a complex number with imaginary part 0.0 in Python; the numbers it is applied
   to come from symmetrize, which takes real parts, common.py:912). *)
From Coq Require Import List Bool ZArith Reals Arith Lia String Ascii.
From Verif Require Import PyBase Num SymModel SymClass EftModel NpModel RealC BetaSpec RotModel JmsModel WetModel SmparModel BetaModel TreeProg.
Import ListNotations.
Local Open Scope string_scope.
Local Open Scope list_scope.

Section Generic.
Context {K : StarField}.
Local Open Scope K_scope.
Notation cdict := (dict string (cval K)).
Definition getk (C : cdict) (k : string) : res (cval K) := lookup C k KeyError.
(* v[I] for a full set of nonnegative indices *)
Definition item (v : cval K) (I : idx) : res K :=
  match v with
  | CNum _ => Err TypeError
  | CArr s a => if Nat.eqb (List.length I) (List.length s) && in_shape s I then Ok (a I) else Err IndexError
  end.
(* C[k] = C[k'].conjugate().T    smeft_tree.py:37-41 *)
Definition dag2 (k' k : string) (C : cdict) : res cdict := bind (getk C k') (fun v => Ok (dset C k (np_T (np_conj v)))).
(* for _f in 'ude': for _b in [...]: if _f + _b in C: ...    smeft_tree.py:36-39 *)
Definition dag_keys : list string :=
  ["uB"; "uG"; "uphi"; "uW"; "dB"; "dG"; "dphi"; "dW"; "eB"; "eG"; "ephi"; "eW"].
Fixpoint dag_dipoles (ks : list string) (C : cdict) : res cdict :=
  match ks with
  | [] => Ok C
  | k :: r => if dmem C k then bind (dag2 k (k ++ "Dag")%string C) (dag_dipoles r) else dag_dipoles r C
  end.
(* C[kDag] = einsum('rpts', C[k]).conjugate()    smeft_tree.py:42-46 *)
Fixpoint dag_four (ks : list string) (C : cdict) : res cdict :=
  match ks with
  | [] => Ok C
  | k :: r => bind (getk C k) (fun v => bind (np_einsum "rpts" [v]) (fun w => dag_four r (dset C (k ++ "Dag")%string (np_conj w))))
  end.
Definition daggers (C : cdict) : res cdict :=
  bind (dag_dipoles dag_keys C) (fun C =>
  bind (dag2 "phiud" "phiudDag" C) (dag_four ["ledq"; "lequ1"; "lequ3"; "quqd1"; "quqd8"])).
(* the assignments c[k] = ...    smeft_tree.py:51-140 *)
Fixpoint exec_tree (C L : cdict) (p : list (string * ex)) (c : cdict) : res cdict :=
  match p with
  | [] => Ok c
  | (k, e) :: r => bind (eval C L e) (fun v => exec_tree C L r (dset c k v))
  end.
(* the constants and variables used in the formulas    smeft_tree.py:6-8,17-33 *)
Definition zeros4 : cval K := CArr [3;3;3;3]%nat (fun _ => 0).
Definition tree_env (sqrt2 mW mZ vT g1bar : K) : res cdict :=
  bind (np_einsum "pr,st" [np_eye 3; np_eye 3]) (fun kdkd =>
  Ok [("Nc", CNum (kZ 3)); ("kd", np_eye 3); ("kdkd", kdkd); ("zeros", zeros4); ("sqrt2", CNum sqrt2);
      ("mW", CNum mW); ("mZ", CNum mZ); ("vT", CNum vT); ("g1bar", CNum g1bar)]).
(* the matching conditions for given values of sqrt(2), mW, mZ, vT and g1bar    smeft_tree.py:35-141 *)
Definition tree_at (sqrt2 mW mZ vT g1bar : K) (C : cdict) : res cdict :=
  bind (tree_env sqrt2 mW mZ vT g1bar) (fun L => bind (daggers C) (fun C' => exec_tree C' L tree_prog [])).
(* 0*v *)
Definition np_zero (v : cval K) : cval K := match v with CNum z => CNum (0 * z) | CArr s a => CArr s (fun I => 0 * a I) end.
(* {k: a[k] - b[k] for k in a} and {k: np.array(a[k] + b[k], complex) for k in a} *)
Definition dict_map2 (f : cval K -> cval K -> res (cval K)) (a b : cdict) : res cdict :=
  map_vals (fun k v => bind (getk b k) (f v)) a.

(* ---------- rotate_down, wet_jms.py:152-216: Pl Fd is UdL, Cj Fd is UdL.conj() ---------- *)
Definition down_rules : list (list string * (string * list umat)) :=
  [(["dgamma"; "dG"], ("ia,ij->aj", [Cj Fd]));
   (["VddLL"], ("ia,jb,kc,ld,ijkl->abcd", [Cj Fd; Pl Fd; Cj Fd; Pl Fd]));
   (["V1udLL"; "V8udLL"; "VedLL"; "VnudLL"], ("kc,ld,ijkl->ijcd", [Cj Fd; Pl Fd]));
   (["V1ddLR"; "V1duLR"; "V8ddLR"; "V8duLR"; "VdeLR"], ("ia,jb,ijkl->abkl", [Cj Fd; Pl Fd]));
   (["S1ddRR"; "S8ddRR"], ("ia,kc,ijkl->ajcl", [Cj Fd; Cj Fd]));
   (["V1udduLR"; "V8udduLR"], ("jb,ijkl->ibkl", [Pl Fd]));
   (["VnueduLL"; "SedRR"; "TedRR"; "SnueduRR"; "TnueduRR"; "S1udRR"; "S8udRR"; "S1udduRR"; "S8udduRR"], ("kc,ijkl->ijcl", [Cj Fd]));
   (["SedRL"], ("ld,ijkl->ijkd", [Pl Fd]));
   (["SduuLL"; "SduuLR"], ("ia,ijkl->ajkl", [Pl Fd]));
   (["SuudRL"; "SdudRL"], ("kc,ijkl->ijcl", [Pl Fd]));
   (["SuddLL"], ("jb,kc,ijkl->ibcl", [Pl Fd; Pl Fd]))].
Definition down_mat (V : cval K) (m : umat) : cval K := match m with Pl _ => V | Cj _ => np_conj V end.
Fixpoint down_keys (V : cval K) (C_in : cdict) (r : string * list umat) (ks : list string) (C : cdict) : res cdict :=
  match ks with
  | [] => Ok C
  | k :: ks' => bind (getk C_in k) (fun v => bind (np_einsum (fst r) (map (down_mat V) (snd r) ++ [v])) (fun w =>
      down_keys V C_in r ks' (dset C k w)))
  end.
Fixpoint down_all (V : cval K) (C_in : cdict) (rs : list (list string * (string * list umat))) (C : cdict) : res cdict :=
  match rs with
  | [] => Ok C
  | (ks, r) :: rs' => bind (down_keys V C_in r ks C) (down_all V C_in rs')
  end.
Definition rotate_down (V : cval K) (C_in : cdict) : res cdict := down_all V C_in down_rules C_in.
End Generic.

Local Open Scope R_scope.
Definition params := dict string R.
Definition getp (p : params) (k : string) : res R := match dget p k with Some x => Ok x | None => Err KeyError end.
(* math.sqrt of a number that may be complex *)
Definition csqrt (z : CR) : res R := if Req_EM_T (snd z) 0 then fsqrt (fst z) else Err TypeError.
Definition num (v : cval CR) : res CR := match v with CNum z => Ok z | CArr _ _ => Err TypeError end.
Definition getn (C : cdictR) (k : string) : res CR := bind (getk C k) num.

(* smeft_tree.py:17-33: (mW, mZ, vT, g1bar) *)
Record ewpar := { e_mW : R; e_mZ : R; e_vT : R; e_g1 : CR }.
Definition ew_inputs (C : cdictR) (p : params) : res ewpar :=
  bind (getp p "m_W") (fun mW =>
  bind (getp p "GF") (fun GF =>
  bind (getk C "ll") (fun ll => bind (item ll [1;0;0;1]%nat) (fun ll1 => bind (item ll [0;1;1;0]%nat) (fun ll2 =>
  bind (getk C "phil3") (fun phil3 => bind (item phil3 [1;1]%nat) (fun h2 => bind (item phil3 [0;0]%nat) (fun h1 =>
  let GFx := (rc GF - rc (sqrt 2 / 4) * (- ll1 - ll2 + kZ 2 * h2 + kZ 2 * h1))%K in
  bind (fdiv (1 / sqrt 2) (cabs GFx)) (fun v2 =>
  let vT := sqrt v2 in
  bind (getn C "phiWB") (fun phiWB =>
  let eps := (phiWB * rc (vT ^ 2))%K in
  bind (fdiv (2 * mW) vT) (fun g2b =>
  bind (getp p "alpha_e") (fun alpha_e =>
  bind (fsqrt (4 * PI * alpha_e)) (fun eb =>
  bind (bind (fsqrt (g2b ^ 2 - eb ^ 2)) (fdiv (eb * g2b))) (fun g1a =>
  bind (fdiv (eb ^ 2 * g2b) (g2b ^ 2 - eb ^ 2)) (fun g1c =>
  let g1b := (rc g1a + rc g1c * eps)%K in
  bind (getn C "phiD") (fun phiD =>
  bind (csqrt (rc (vT ^ 2 / 4) * (1 + rc (vT ^ 2 / 2) * phiD) * (rc (g2b ^ 2) + g1b * g1b) + rc (vT ^ 2 / 2) * eps * g1b * rc g2b)%K) (fun mZ =>
  Ok {| e_mW := mW; e_mZ := mZ; e_vT := vT; e_g1 := g1b |}))))))))))))))))).

(* _match_all_array    smeft_tree.py:11-141 *)
Definition tree_raw (C : cdictR) (p : params) : res cdictR :=
  bind (ew_inputs C p) (fun e => tree_at (rc (sqrt 2)) (rc (e_mW e)) (rc (e_mZ e)) (rc (e_vT e)) (e_g1 e) C).
(* match_all_array    smeft_tree.py:144-151, and the same lines of smeft_loop.py:157-164 *)
Definition subtract_sm (f : cdictR -> res cdictR) (C : cdictR) : res cdictR :=
  bind (f C) (fun c => bind (f (map (fun kv => (fst kv, np_zero (snd kv))) C)) (fun c0 => dict_map2 np_sub c c0)).
Definition tree_match (C : cdictR) (p : params) : res cdictR := subtract_sm (fun C => tree_raw C p) C.

(* match_all    match/smeft.py:16-42.  defaults is smpar.p; loop is smeft_loop._match_all_array,
   ckm is ckmutil.ckm.ckm_tree, E is smeftutil, jms is wcxf.Basis['WET', 'JMS'].all_wcs *)
Section MatchAll.
Variable E : eft.
Variable jms : list string.
Variable defaults : params.
Variable ckm : R -> R -> R -> R -> cval CR.
Variable loop : cdictR -> params -> R -> res cdictR.
Definition ckm_of (p : params) : res (cval CR) :=
  bind (getp p "Vus") (fun a => bind (getp p "Vub") (fun b => bind (getp p "Vcb") (fun c => bind (getp p "gamma") (fun d =>
  Ok (ckm a b c d))))).
Definition match_arrays (C : cdictR) (scale : R) (p : params) : res cdictR :=
  bind (tree_match C p) (fun tree =>
  match dget p "loop_order" with
  | Some x => if Req_EM_T x 1 then bind (subtract_sm (fun C => loop C p scale) C) (dict_map2 np_add tree) else Ok tree
  | None => Ok tree
  end).
Definition match_all (d : dict string CR) (scale : R) (parameters : option params) : res (dict string CR) :=
  let p := match parameters with Some q => dupdate defaults q | None => defaults end in
  bind (wcxf2arrays_symmetrized E d) (fun C =>
  bind (match_arrays C scale p) (fun c =>
  bind (ckm_of p) (fun V =>
  bind (rotate_down V c) (fun c =>
  bind (unscale_dict_wet c) (fun c =>
  Ok (dfilter (fun k _ => kmem k jms) (arrays2wcxf c))))))).
End MatchAll.
