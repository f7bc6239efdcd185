(* Conversion of Wilson coefficients to EOS parameters (wilson/wcxf/converters/eos.py).

   Numbers are elements of K, with z.real and z.imag given by kre and kim.  Not modelled:
   reading and writing of files; a YAML file is the dictionary it contains. *)
From Coq Require Import List Bool ZArith QArith Arith Lia String Ascii.
From Verif Require Import PyBase Num.
Import ListNotations.
Local Open Scope string_scope.
Local Open Scope list_scope.

(* ---------- strings ---------- *)
(* s[len(p):] if s.startswith(p) *)
Fixpoint eat (p s : string) : option string :=
  match p, s with
  | EmptyString, _ => Some s
  | String c p', String c' s' => if Ascii.eqb c c' then eat p' s' else None
  | String _ _, EmptyString => None
  end.
(* p in s *)
Fixpoint contains (p s : string) : bool :=
  match eat p s with
  | Some _ => true
  | None => match s with EmptyString => false | String _ s' => contains p s' end
  end.
(* the part of s before the first }, and the part after it *)
Fixpoint until_brace (s : string) : option (string * string) :=
  match s with
  | EmptyString => None
  | String c r => if Ascii.eqb c "}" then Some (EmptyString, r)
                  else match until_brace r with Some (g, t) => Some (String c g, t) | None => None end
  end.
(* re.sub(r'TAG\{([^\}]+)\}', r'\1', s): scans from the left; n bounds the number of steps *)
Fixpoint re_sub_n (n : nat) (tag s : string) : string :=
  match n, s with
  | O, _ | _, EmptyString => s
  | Datatypes.S n', String c r =>
      match match eat tag s with Some t => until_brace t | None => None end with
      | Some (String a g, rest) => (String a g ++ re_sub_n n' tag rest)%string
      | _ => String c (re_sub_n n' tag r)
      end
  end.
Definition re_sub (tag s : string) : string := re_sub_n (String.length s) tag s.
(* s.replace(old, new) for a nonempty old *)
Fixpoint replace_n (n : nat) (old new s : string) : string :=
  match n, s with
  | O, _ | _, EmptyString => s
  | Datatypes.S n', String c r =>
      match eat old s with
      | Some rest => (new ++ replace_n n' old new rest)%string
      | None => String c (replace_n n' old new r)
      end
  end.
Definition str_replace (old new s : string) : string := replace_n (String.length s) old new s.

Section Eos.
Context {K : StarField}.
Local Open Scope K_scope.

(* the branch for charged-current coefficients, eos.py:36-40 and 46-50; part is the
   attribute real or imag *)
Definition eos_cc (part : K -> K) (k2 : string) (wc : dict string K) : res K :=
  let e := str_replace "lnu" "enue" k2 in
  let mu := str_replace "lnu" "munumu" k2 in
  if dmem wc e || dmem wc mu then
    if negb (kdec (dgetd wc e 0) (dgetd wc mu 0)) then Err ValueError
    else Ok (part (dgetd wc e 0))
  else Ok 0.
(* get_eos_np, eos.py:26-51; wc is wc.dict *)
Definition get_eos_np (sm_key : string) (wc : dict string K) : res K :=
  match dget wc sm_key with
  | Some z => Ok (kre z)
  | None =>
      if contains "Re{" sm_key then
        let k2 := re_sub "Re{" sm_key in
        match dget wc k2 with Some z => Ok (kre z) | None => eos_cc kre k2 wc end
      else if contains "Im{" sm_key then
        let k2 := re_sub "Im{" sm_key in
        match dget wc k2 with Some z => Ok (kim z) | None => eos_cc kim k2 wc end
      else Ok 0
  end.
(* wcxf2eos, eos.py:54-66 *)
Fixpoint wcxf2eos_loop (wc : dict string K) (sm : dict string (dict string K)) (eosd : dict string (dict string K)) : res (dict string (dict string K)) :=
  match sm with
  | [] => Ok eosd
  | (k, v) :: r =>
      match dget v "central" with
      | None => Err KeyError
      | Some c =>
          bind (get_eos_np k wc) (fun np =>
          wcxf2eos_loop wc r (dset eosd k (fold_left (fun d q => dset d q (c + np)) ["central"; "min"; "max"] [])))
      end
  end.
Definition wcxf2eos (wc : dict string K) (sm_wc_dict : dict string (dict string K)) := wcxf2eos_loop wc sm_wc_dict [].

(* a YAML file: the value of wcxf-relevant in its metadata (if there is one), and its
   other entries *)
Record yamlfile := { y_relevant : option bool; y_entries : dict string (dict string K) }.
(* get_sm_wcs, eos.py:10-23; the files in the order of glob.glob *)
Definition get_sm_wcs (files : list yamlfile) : dict string (dict string K) :=
  fold_left (fun all_wcs f => match y_relevant f with Some true => dupdate all_wcs (y_entries f) | _ => all_wcs end) files [].
End Eos.
Arguments yamlfile : clear implicits.
