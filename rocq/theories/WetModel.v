(* Model of wilson/run/wet: adm.py (matrices in AdmData.v), rge.py, definitions.py and the
   class WETrunner of classes.py.

   Numbers are complex numbers over Coq's reals (RealC.v); rounding is not modelled.
   A matrix is a function of row and column together with its size.
   numpy.linalg.eig and numpy.linalg.inv are oracles (record linalg); the theorems that
   need it assume their contract (WetSpec.v).
   lru_cache is left out: the cached functions depend on nothing but their arguments and,
   for get_permissible_wcs, the registered bases, which do not change during a run. *)
From Coq Require Import List Bool ZArith Reals Arith Lia String Ascii.
From Verif Require Import PyBase Num SymModel EftModel NpModel RealC WcxfModel AdmData.
Import ListNotations.
Local Open Scope string_scope.
Local Open Scope list_scope.

(* ---------- Python floats ---------- *)
(* a / b *)
Definition fdiv (a b : R) : res R := if Req_EM_T b 0 then Err ZeroDivisionError else Ok (a / b)%R.
(* math.sqrt *)
Definition fsqrt (x : R) : res R := if Rlt_dec x 0 then Err ValueError else Ok (sqrt x).
(* == on numbers *)
Definition ceqb : CR -> CR -> bool := cx_eqb.
Lemma ceqb_spec x y : reflect (x = y) (ceqb x y).
Proof. apply cx_eqb_spec. Qed.
(* x ** a for a positive float x and a complex a *)
Definition cpow (x : R) (a : CR) : CR :=
  ((exp (fst a * ln x) * cos (snd a * ln x))%R, (exp (fst a * ln x) * sin (snd a * ln x))%R).
Fixpoint res_map {A B} (f : A -> res B) (l : list A) : res (list B) :=
  match l with
  | [] => Ok []
  | x :: r => bind (f x) (fun y => bind (res_map f r) (fun ys => Ok (y :: ys)))
  end.

(* ---------- adm.py ---------- *)
(* the running parameters, classes.py:55-70 (a dictionary with exactly these keys) *)
Record rpar := mkP { alpha_s : R; alpha_e : R; m_u : R; m_d : R; m_s : R; m_c : R; m_b : R;
                     m_e : R; m_mu : R; m_tau : R }.
(* the call adm_X(f, m_u, m_d, m_s, m_c, m_b, m_e, m_mu, m_tau), rge.py:43-44, 65-66, binds
   the parameters (f, mu, md, ms, mc, mb, me, mmu, mtau) of the functions in adm.py *)
Definition mval (p : rpar) (v : mvar) : R :=
  match v with
  | Mu => m_u p | Md => m_d p | Ms => m_s p | Mc => m_c p | Mb => m_b p
  | Me => m_e p | Mmu => m_mu p | Mtau => m_tau p
  end.
(* _b0g(f) = 11 - 2 /3 * f     adm.py:13-14 *)
Definition b0g (f : Z) : R := (11 - 2 / 3 * IZR f)%R.
Fixpoint aeval (p : rpar) (f : Z) (e : aexp) : res CR :=
  match e with
  | N n => Ok (rc (IZR n))
  | Dec n d => Ok (rc (IZR n / IZR (Zpos d)))
  | AJ => Ok ki
  | V v => Ok (rc (mval p v))
  | B0 => Ok (rc (b0g f))
  | Neg a => rmap kopp (aeval p f a)
  | Add a b => bind (aeval p f a) (fun x => rmap (kadd x) (aeval p f b))
  | Mul a b => bind (aeval p f a) (fun x => rmap (kmul x) (aeval p f b))
  | Div a b => bind (aeval p f a) (fun x => bind (aeval p f b) (fun y =>
                 if ceqb y k0 then Err ZeroDivisionError else Ok (kdiv x y)))
  end.
Definition mat := nat -> nat -> CR.
Definition arow_eval (p : rpar) (f : Z) (r : arow) : res (dict nat CR) :=
  res_map (fun je => rmap (fun z => (fst je, z)) (aeval p f (snd je))) r.
(* np.array([...]): size and entries *)
Definition amat_eval (p : rpar) (f : Z) (m : amat) : res (nat * mat) :=
  rmap (fun rows => (List.length rows, fun i j => dgetd (nth i rows []) j k0)) (res_map (arow_eval p f) m).

(* ---------- definitions.py ---------- *)
(* definitions.py:42-45 *)
Definition sectors : dict string string :=
  fold_left (fun d cs => fold_left (fun d s => dset d s (fst cs)) (snd cs) d) classes [].

(* ---------- rge.py ---------- *)
Record linalg := {
  eig : nat -> mat -> (nat -> CR) * mat;   (* np.linalg.eig: eigenvalues, eigenvectors as columns *)
  minv : nat -> mat -> mat                  (* np.linalg.inv *)
}.
Section Rge.
Variable la : linalg.
Variable bases : @basis_reg CR.           (* wcxf.Basis *)
Local Open Scope K_scope.

(* A @ B for square matrices of size n, A @ x, np.eye, np.diag, A.T *)
Definition mmul (n : nat) (A B : mat) : mat := fun i j => ksum (map (fun k => A i k * B k j) (seq 0 n)).
Definition mvec (n : nat) (A : mat) (x : nat -> CR) : nat -> CR := fun i => ksum (map (fun k => A i k * x k) (seq 0 n)).
Definition meye : mat := fun i j => if (i =? j)%nat then 1 else 0.
Definition mdiag (d : nat -> CR) : mat := fun i j => if (i =? j)%nat then d i else 0.
Definition mT (A : mat) : mat := fun i j => A j i.

(* rge.py:19 *)
Definition special_classes : list string := ["cu"; "db"; "sb"; "sd"; "mue"; "mutau"; "taue"; "dF0"].
(* get_permissible_wcs(classname, f)    rge.py:13-33; None stands for 'all' *)
Definition get_permissible_wcs (classname : string) (f : Z) : res (option (list nat)) :=
  if negb (kmem classname special_classes) || (f =? 5)%Z then Ok None else
  if negb ((f =? 3)%Z || (f =? 4)%Z) then Err ValueError else
  let sector := if String.eqb classname "dF0" then "dF=0" else classname in
  bind (reg_get bases ((if (f =? 3)%Z then "WET-3" else "WET-4"), "JMS")) (fun b =>
  match b_sectors b with
  | None => Err AttributeError
  | Some secs =>
      match dget secs sector with
      | None => Err KeyError
      | Some perm =>
          match dget coeffs sector with
          | None => Err KeyError
          | Some all => Ok (Some (filter (fun i => dmem perm (nth i all "")) (seq 0 (List.length all))))
          end
      end
  end).
(* A[perm_keys][:, perm_keys] *)
Definition reduce (perm : option (list nat)) (A : nat * mat) : nat * mat :=
  match perm with
  | None => A
  | Some l => (List.length l, fun i j => snd A (nth i l 0%nat) (nth j l 0%nat))
  end.
(* getattr(adm, name) called with the args, reduced to the permissible coefficients   rge.py:44-48, 66-70 *)
Definition adm_reduced (pre classname : string) (f : Z) (p : rpar) : res (nat * mat) :=
  match dget adm_table (pre ++ classname)%string with
  | None => Err AttributeError
  | Some m => bind (amat_eval p f m) (fun A =>
              bind (get_permissible_wcs classname f) (fun perm => Ok (reduce perm A)))
  end.
(* admeig    rge.py:36-50: size, eigenvalues and eigenvectors of A.T *)
Definition admeig (classname : string) (f : Z) (p : rpar) : res (nat * (nat -> CR) * mat) :=
  bind (adm_reduced "adm_s_" classname f p) (fun A =>
  let wv := eig la (fst A) (mT (snd A)) in
  Ok (fst A, fst wv, snd wv)).
(* b0s = 11 - 2 * f / 3    rge.py:57, 72 *)
Definition b0s (f : Z) : R := (11 - 2 * IZR f / 3)%R.
(* getUs    rge.py:53-59; eta_s is a positive float *)
Definition getUs (classname : string) (eta_s : R) (f : Z) (p : rpar) : res (nat * mat) :=
  bind (admeig classname f p) (fun '(n, w, v) =>
  let a := fun i => w i / rc (2 * b0s f) in
  Ok (n, mmul n (mmul n v (mdiag (fun i => cpow eta_s (a i)))) (minv la n v))).
(* the factors in the loop rge.py:75-80 *)
Definition ue_factor (eta_s : R) (ai aj : CR) : CR :=
  if negb (ceqb (ai - aj) 1)
  then (cpow eta_s (aj + 1) - cpow eta_s ai) / (ai - aj - 1)
  else cpow eta_s ai * rc (ln (1 / eta_s)).
(* getUe    rge.py:62-81.  The division by 2 * b0s * alpha_s is one of floats. *)
Definition getUe (classname : string) (eta_s : R) (f : Z) (p : rpar) : res (nat * mat) :=
  bind (adm_reduced "adm_e_" classname f p) (fun A =>
  bind (admeig classname f p) (fun '(n, w, v) =>
  if negb (fst A =? n)%nat then Err ValueError else
  let a := fun i => w i / rc (2 * b0s f) in
  let K0 := mmul n (mmul n (minv la n v) (mT (snd A))) v in
  let K := fun i j => K0 i j * ue_factor eta_s (a i) (a j) in
  bind (fdiv (- alpha_e p) (2 * b0s f * alpha_s p)) (fun pre =>
  Ok (n, mmul n (mmul n (fun i j => rc pre * v i j) K) (minv la n v))))).

(* rge.py:84-87 *)
Definition qG : list string := ["uG"; "dG"].
Definition qgamma : list string := ["ugamma"; "dgamma"].
Definition lgamma : list string := ["egamma"; "nugamma"].
Definition G3 : list string := ["G"; "Gtilde"].
(* max(ind): the largest character *)
Fixpoint max_char (s : string) : res ascii :=
  match s with
  | EmptyString => Err ValueError
  | String c EmptyString => Ok c
  | String c r => rmap (fun d => if (nat_of_ascii c <=? nat_of_ascii d)%nat then d else c) (max_char r)
  end.
(* l[i] for a list l and an index i, which may be negative *)
Definition lindex {A} (l : list A) (i : Z) : res A :=
  let j := if (i <? 0)%Z then (i + Z.of_nat (List.length l))%Z else i in
  if (j <? 0)%Z then Err IndexError else
  match nth_error l (Z.to_nat j) with Some x => Ok x | None => Err IndexError end.
(* get_m    rge.py:90-100: None stands for the number 0 (not a key of p) *)
Definition get_m (key : string) : res (option string) :=
  bind (max_char (index_of key)) (fun c => bind (int_char c) (fun gen =>
  if String.eqb (substring 0 2 key) "nu" then Ok None
  else if String.eqb (substring 0 1 key) "e" then rmap Some (lindex ["m_e"; "m_mu"; "m_tau"] (gen - 1))
  else if String.eqb (substring 0 1 key) "u" then rmap Some (lindex ["m_u"; "m_c"; "m_t"] (gen - 1))
  else if String.eqb (substring 0 1 key) "d" then rmap Some (lindex ["m_d"; "m_s"; "m_b"] (gen - 1))
  else Ok None)).
(* p[name] for the masses *)
Definition p_get (p : rpar) (k : option string) : res R :=
  match k with
  | None => Err KeyError
  | Some k =>
      match dget [("m_u", m_u p); ("m_d", m_d p); ("m_s", m_s p); ("m_c", m_c p); ("m_b", m_b p);
                  ("m_e", m_e p); ("m_mu", m_mu p); ("m_tau", m_tau p)] k with
      | Some x => Ok x
      | None => Err KeyError
      end
  end.
(* scale_C    rge.py:103-116 *)
Definition scale_C (key : string) (p : rpar) : res R :=
  bind (fsqrt (4 * PI * alpha_s p)) (fun g =>
  bind (fsqrt (4 * PI * alpha_e p)) (fun e =>
  if kmem (name_of key) qG then bind (get_m key) (fun mk => bind (p_get p mk) (fun m => fdiv g m))
  else if kmem (name_of key) (qgamma ++ lgamma) then
    bind (get_m key) (fun mk => bind (p_get p mk) (fun m => bind (fdiv (g ^ 2) e) (fun x => fdiv x m)))
  else if kmem key G3 then Ok g
  else Ok 1%R)).

(* (Us + Ue) @ C_scaled for matrices of sizes n and m: shapes must agree.
   (Broadcasting of a 1x1 matrix is not modelled; there is no sector of size 1.) *)
Definition evolve (Us Ue : nat * mat) (x : list CR) : res (list CR) :=
  let n := List.length x in
  if (fst Us =? n)%nat && (fst Ue =? n)%nat
  then Ok (map (mvec n (fun i j => snd Us i j + snd Ue i j) (fun k => nth k x 0)) (seq 0 n))
  else Err ValueError.
(* keylist, restricted to the permissible coefficients     rge.py:133-140 *)
Definition sector_keys (sector : string) (f : Z) : res (list string) :=
  match dget coeffs sector with
  | None => Err KeyError
  | Some keylist =>
      rmap (fun perm => match perm with
                        | None => keylist
                        | Some l => map (fun i => nth i keylist "") l
                        end)
           (if String.eqb sector "dF=0" then get_permissible_wcs "dF0" f else get_permissible_wcs sector f)
  end.
(* the evolution matrix as used in rge.py:147-157; n is the number of coefficients *)
Definition us_of (classname : string) (eta_s : R) (f : Z) (p : rpar) (qcd_order : Z) (n : nat) : res (nat * mat) :=
  if (qcd_order =? 0)%Z then Ok (n, meye)
  else if (qcd_order =? 1)%Z then getUs classname eta_s f p
  else Err UnboundLocalError.
Definition ue_of (classname : string) (eta_s : R) (f : Z) (p : rpar) (qed_order qcd_order : Z) (n : nat) : res (nat * mat) :=
  if (qed_order =? 0)%Z then Ok (n, fun _ _ => 0)
  else if (qed_order =? 1)%Z then
    (if (qcd_order =? 0)%Z then getUe classname 1 f p else getUe classname eta_s f p)
  else Err UnboundLocalError.
(* C_out[i] / scale_C(key, p_out)    rge.py:159.  For scale_C = 0 numpy returns inf or nan with
   a warning; the model raises ZeroDivisionError. *)
Definition unscale (p_out : rpar) (kc : string * CR) : res CR :=
  bind (scale_C (fst kc) p_out) (fun s =>
    if Req_EM_T s 0 then Err ZeroDivisionError else Ok (snd kc / rc s)).
(* run_sector    rge.py:119-162.  UnboundLocalError for orders other than 0 and 1 is raised
   in the model before the exceptions of getUe, in the code it is raised when Us or Ue is used. *)
Definition run_sector (sector : string) (C_in : dict string CR) (eta_s : R) (f : Z) (p_in p_out : rpar)
           (qed_order qcd_order : Z) : res (dict string CR) :=
  match dget sectors sector with
  | None => Err KeyError
  | Some classname =>
      bind (sector_keys sector f) (fun keylist =>
      let C_input := map (fun key => dgetd C_in key 0) keylist in
      let out C_result := fold_left (fun d kv => dset d (fst kv) (snd kv)) (combine keylist C_result) [] in
      if forallb (fun z => ceqb z 0) C_input || String.eqb classname "inv"
      then Ok (out C_input)
      else
        bind (res_map (fun kc => rmap (fun s => snd kc * rc s) (scale_C (fst kc) p_in)) (combine keylist C_input)) (fun C_scaled =>
        bind (us_of classname eta_s f p_in qcd_order (List.length C_scaled)) (fun Us =>
        bind (ue_of classname eta_s f p_in qed_order qcd_order (List.length C_scaled)) (fun Ue =>
        bind (evolve Us Ue C_scaled) (fun C_out =>
        bind (res_map (unscale p_out) (combine keylist C_out)) (fun C_result =>
        Ok (out C_result)))))))
  end.

(* ---------- classes.py: WETrunner ---------- *)
Variable efts : @eft_reg CR.                  (* wcxf.EFT *)
(* _get_running_parameters(scale, f)    classes.py:55-70: the values of qcd.alpha_s, qcd.m_b, ...
   (modelled in QcdModel.v) for the parameters of the runner, as one function of f and scale *)
Variable running : Z -> R -> res rpar.

(* the attributes set by __init__    classes.py:22-53; None: self.f is not set *)
Record runner := mkRunner { r_eft : string; r_f : option Z; r_scale : R; r_C : dict string CR;
                            r_qed : Z; r_qcd : Z }.
Definition wet_init (w : @WC CR) (scale : R) (qed_order qcd_order : Z) : res runner :=
  if String.eqb (wc_basis w) "JMS" then
    Ok (mkRunner (wc_eft w)
          (if String.eqb (wc_eft w) "WET" then Some 5%Z
           else if String.eqb (wc_eft w) "WET-4" then Some 4%Z
           else if String.eqb (wc_eft w) "WET-3" then Some 3%Z else None)
          scale (wc_dict w) qed_order qcd_order)
  else Err AssertionError.
(* the argument `sectors`: a string, or a tuple or list of strings *)
Inductive sel := SelStr (s : string) | SelList (l : list string).
(* the Python test `a in b` for strings: a is a substring of b *)
Fixpoint is_sub (a b : string) : bool :=
  String.prefix a b || match b with EmptyString => false | String _ r => is_sub a r end.
(* sectors == 'all' or sector in sectors    classes.py:79 *)
Definition selected (s : sel) (sector : string) : bool :=
  match s with
  | SelStr t => String.eqb t "all" || is_sub sector t
  | SelList l => kmem sector l
  end.
(* _run_dict    classes.py:72-84 *)
Fixpoint run_sectors (r : runner) (f : Z) (eta : R) (p_i p_o : rpar) (s : sel) (todo : list string)
         (C_out : dict string CR) : res (dict string CR) :=
  match todo with
  | [] => Ok C_out
  | sector :: rest =>
      if dmem sectors sector && selected s sector
      then bind (run_sector sector (r_C r) eta f p_i p_o (r_qed r) (r_qcd r)) (fun d =>
             run_sectors r f eta p_i p_o s rest (dupdate C_out d))
      else run_sectors r f eta p_i p_o s rest C_out
  end.
Definition run_dict (r : runner) (scale_out : R) (s : sel) : res (dict string CR) :=
  match r_f r with
  | None => Err AttributeError
  | Some f =>
      bind (running f (r_scale r)) (fun p_i =>
      bind (running f scale_out) (fun p_o =>
      bind (fdiv (alpha_s p_i) (alpha_s p_o)) (fun eta =>
      bind (reg_get efts (r_eft r)) (fun E =>
      run_sectors r f eta p_i p_o s (dkeys (eft_sectors E)) []))))
  end.
(* run    classes.py:86-104; h is the identity of the new WC object *)
Definition wet_run (r : runner) (scale_out : R) (s : sel) (h : nat) : res (@WC CR) :=
  bind (run_dict r scale_out s) (fun C_out =>
  bind (reg_get bases (r_eft r, "JMS")) (fun b =>
  bind (all_wcs b) (fun all =>
  let C := dfilter (fun k v => negb (ceqb v 0) && kmem k all) C_out in
  Ok (mkWC (r_eft r) "JMS" (rc scale_out) (dict2values C) [] h)))).
End Rge.
