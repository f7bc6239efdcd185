(* The parameter cards for SMEFTsim, wilson/wcxf/converters/smeftsim.py, on complex numbers
   over the reals.  The lines of the cards are in SimData.v (generated).  The values are the
   numbers that the code passes to format(., '.6e'); the formatting itself, which rounds to
   seven digits, and the text around the blocks (smeftsim_card_text) are not modelled. *)
From Coq Require Import List Bool ZArith Reals String.
From Verif Require Import PyBase Num RealC SymModel SymClass EftModel WcxfModel SimData.
Import ListNotations.
Local Open Scope string_scope.
Local Open Scope list_scope.

(* abs, numpy.angle: the modulus and the argument in (-pi, pi] *)
Definition c_abs (z : CR) : CR := rc (sqrt (cx_n2 z)).
Definition atan2 (y x : R) : R :=
  if Rlt_dec 0 x then atan (y / x)
  else if Rlt_dec x 0 then if Rlt_dec y 0 then (atan (y / x) - PI)%R else (atan (y / x) + PI)%R
  else if Rlt_dec 0 y then (PI / 2)%R else if Rlt_dec y 0 then (- (PI / 2))%R else 0%R.
Definition c_angle (z : CR) : CR := rc (atan2 (snd z) (fst z)).

Section M.
Local Open Scope K_scope.
Variable E : eft.                                       (* smeftutil *)
(* smeftutil._scale_dict, common.py:176-209.  For SMEFT every array has three generations,
   so that pad_C, called there with fill_value=1, changes nothing. *)
Definition symm_factor (oc : option cls) (I : idx) : CR :=
  kZ (Z.of_nat match oc with
  | Some (Cl4 | Cl41) => d_4 I
  | Some Cl6 => d_6 I
  | Some (Cl7 | Cl71) => d_7 I
  | _ => 1%nat
  end).
Definition scale_dict : dict string (cval CR) :=
  dmap (fun n sh => match sh with None => CNum 1 | Some s => CArr s (symm_factor (class_of E n)) end) (e_shape E).
(* scaled_wc, smeftsim.py:94-99 *)
Definition scaled_wc (wc : WC CR) (k : string) : res CR :=
  match dget (arrays2wcxf scale_dict) k with
  | None => Err KeyError
  | Some f => Ok (wc_getitem wc k / f)
  end.
(* the value of a line *)
Definition line_value (wc : WC CR) (lam : CR) (e : vexpr) : res CR :=
  match e with
  | VAbs k => rmap (fun z => c_abs z * (lam * lam)) (scaled_wc wc k)
  | VAbsOut k => rmap (fun z => c_abs (z * (lam * lam))) (scaled_wc wc k)
  | VAng k => rmap c_angle (scaled_wc wc k)
  | VVal k => rmap (fun z => z * (lam * lam)) (scaled_wc wc k)
  | VLambda => Ok lam
  end.
Definition simline : Type := list Z * CR * string.
Definition fill_line (wc : WC CR) (lam : CR) (l : cardline) : res simline :=
  let '(ix, e, com) := l in rmap (fun v => (ix, v, com)) (line_value wc lam e).
Definition card : Type := dict string (list simline).
Fixpoint rmapM {A B} (f : A -> res B) (l : list A) : res (list B) :=
  match l with [] => Ok [] | x :: r => bind (f x) (fun y => bind (rmapM f r) (fun ys => Ok (y :: ys))) end.
Definition fill_blocks (wc : WC CR) (lam : CR) (bs : list (string * list cardline)) (c : card) : res card :=
  fold_left (fun acc b => bind acc (fun c => rmap (dset c (fst b)) (rmapM (fill_line wc lam) (snd b)))) bs (Ok c).
(* list.insert *)
Definition py_insert {A} (n : nat) (x : A) (l : list A) : list A := firstn n l ++ x :: skipn n l.
Definition m_w : CR := rc (80387 / 1000).
(* initialize_smeftsim_card, smeftsim.py:9-89; an OrderedDict without 'values' is the empty
   list *)
Definition init_card (model_set : string) : res card :=
  if String.eqb model_set "A" then Ok (map (fun b => (b, [])) init_A)
  else if String.eqb model_set "B" then Ok (map (fun b => (b, [])) init_B)
  else Err UnboundLocalError.
(* smeftsim_card_fill, smeftsim.py:92-5319; line 2709-2710 for the input scheme *)
Definition card_fill (c : card) (wc : WC CR) (model_set : string) (lam : CR) (scheme : string) : res card :=
  if String.eqb model_set "A" then
    bind (fill_blocks wc lam card_A c) (fun c =>
    if String.eqb scheme "mw" then
      match dget c "FRBlock" with
      | None => Err KeyError
      | Some l => Ok (dset c "FRBlock" (py_insert 1474 ([1475]%Z, m_w, "# MW0") l))
      end
    else Ok c)
  else if String.eqb model_set "B" then fill_blocks wc lam card_B c
  else Ok c.
(* the two calls in wcxf/cli.py:188-189 *)
Definition param_card (wc : WC CR) (model_set : string) (lam : CR) (scheme : string) : res card :=
  bind (init_card model_set) (fun c => card_fill c wc model_set lam scheme).
End M.
