(* Dictionaries of WET coefficients in the JMS basis: wilson/util/wet_jms.py.

   wcxf.Basis['WET', 'JMS'].all_wcs is the parameter all.  np.nan is None.  Values
   given by the user are numbers (never nan).  Not modelled: dtypes and nan
   arithmetic other than copying, conjugating and negating. *)
From Coq Require Import List Bool ZArith QArith Arith Lia String Ascii.
From Verif Require Import PyBase Num SymModel SymClass EftModel.
Import ListNotations.
Local Open Scope string_scope.
Local Open Scope list_scope.

(* C_symm_keys, wet_jms.py:10-36 *)
Definition jms_symm_keys : dict cls (list string) :=
  [(Cl0, ["G"; "Gtilde"]);
   (Cl1, ["egamma"; "uG"; "dG"; "ugamma"; "dgamma"]);
   (Cl3, ["S1udRR"; "S1udduRR"; "S8udRR"; "S8udduRR"; "SedRL"; "SedRR"; "SeuRL"; "SeuRR"; "SnueduRL";
          "SnueduRR"; "TedRR"; "TeuRR"; "TnueduRR"; "V1udduLR"; "V8udduLR"; "VnueduLL"; "VnueduLR";
          "SuddLL"; "SduuLL"; "SduuLR"; "SduuRL"; "SdudRL"; "SduuRR"]);
   (Cl4, ["VuuRR"; "VddRR"; "VuuLL"; "VddLL"]);
   (Cl41, ["S1ddRR"; "S1uuRR"; "S8uuRR"; "SeeRR"; "S8ddRR"]);
   (Cl5, ["VnueLL"; "VnuuLL"; "VnudLL"; "VeuLL"; "VedLL"; "V1udLL"; "V8udLL"; "VeuRR"; "VedRR"; "V1udRR";
          "V8udRR"; "VnueLR"; "VeeLR"; "VnuuLR"; "VnudLR"; "VeuLR"; "VedLR"; "VueLR"; "VdeLR"; "V1uuLR";
          "V8uuLR"; "V1udLR"; "V8udLR"; "V1duLR"; "V8duLR"; "V1ddLR"; "V8ddLR"]);
   (Cl6, ["VeeLL"; "VeeRR"; "VnunuLL"]);
   (Cl71, ["SuudLR"; "SuudRL"; "SdduRL"])].
Definition in_class (c : cls) (name : string) : bool := kmem name (dgetd jms_symm_keys c []).

Section Jms.
Context {K : StarField}.
Local Open Scope K_scope.
Variable all : list string.

(* '_'.join([name, ''.join(chars)]) *)
Definition join_label (name : string) (chars : list ascii) : string :=
  (name ++ "_" ++ string_of_list_ascii chars)%string.
(* i, j, k, l = ind *)
Definition unpack4 {A} (ind : string) (f : ascii -> ascii -> ascii -> ascii -> A) : res A :=
  match list_ascii_of_string ind with [i; j; k; l] => Ok (f i j k l) | _ => Err ValueError end.

(* symmetrize_JMS_dict, wet_jms.py:110-149: the entry written for (op, v), if any *)
Definition jms_entry (op : string) (v : K) : res (option (string * K)) :=
  if negb (has_us op) || kmem op all then Ok (Some (op, v)) else
  match split_us op with
  | [name; ind] =>
      if in_class Cl5 name then unpack4 ind (fun i j k l => Some (join_label name [j; i; l; k], v^*))
      else if in_class Cl41 name then unpack4 ind (fun i j k l => Some (join_label name [k; l; i; j], v))
      else if in_class Cl4 name then unpack4 ind (fun i j k l =>
        let n1 := join_label name [l; k; j; i] in
        if kmem n1 all then Some (n1, v^*) else
        let n2 := join_label name [j; i; l; k] in
        if kmem n2 all then Some (n2, v^*) else Some (join_label name [k; l; i; j], v))
      else if in_class Cl71 name then unpack4 ind (fun i j k l => Some (join_label name [j; i; k; l], - v))
      else Ok None
  | _ => Err ValueError                                  (* name, ind = op.split('_') *)
  end.
Definition symmetrize_JMS_dict (C : dict string K) : res (dict string K) :=
  fold_left (fun acc kv => bind acc (fun Cs =>
    bind (jms_entry (fst kv) (snd kv)) (fun o =>
    Ok (match o with None => Cs | Some (k, w) => dset Cs k w end)))) C (Ok []).

(* values of the arrays returned by _scalar2array: numbers, or arrays of dimension
   (3, ..., 3) with entries possibly nan *)
Inductive jval := JNum (z : K) | JArr (dim : nat) (a : idx -> option K).
(* _scalar2array, wet_jms.py:41-56 *)
Definition s2a_step (da : dict string jval) (kv : string * K) : res (dict string jval) :=
  let k := fst kv in
  if negb (has_us k) then Ok (dset da k (JNum (snd kv))) else
  let name := String.concat "" (removelast (split_us k)) in
  let ind := index_of k in
  let dim := String.length ind in
  match (match dget da name with Some x => x | None => JArr dim (fun _ => None) end) with
  | JNum _ => Err TypeError
  | JArr m a =>
      bind (int_chars ind) (fun zs =>
      bind (norm_index (repeat 3%nat m) (map (fun z => z - 1)%Z zs)) (fun p =>
      Ok (dset da name (JArr m (fun I => if prefixb p I then Some (snd kv) else a I)))))
  end.
Definition scalar2array (d : dict string K) : res (dict string jval) :=
  fold_left (fun acc kv => bind acc (fun da => s2a_step da kv)) d (Ok []).

(* C[nans] = f(np.einsum(p, C)[nans]): nan entries are replaced, all at once *)
Definition fill (p : idx -> idx) (f : K -> K) (a : idx -> option K) : idx -> option K :=
  fun I => match a I with Some v => Some v | None => match a (p I) with Some v => Some (f v) | None => None end end.
Definition perm_herm (I : idx) : idx := match I with [i;j;k;l] => [j;i;l;k] | _ => I end.    (* einsum('jilk') *)
Definition perm_curr (I : idx) : idx := match I with [i;j;k;l] => [k;l;i;j] | _ => I end.    (* einsum('klij') *)
Definition perm_12 (I : idx) : idx := match I with [i;j;k;l] => [j;i;k;l] | _ => I end.      (* einsum('jikl') *)
(* _symm_herm, _symm_current, _antisymm_12, wet_jms.py:59-81 *)
Definition symm_herm (a : idx -> option K) := fill perm_herm kconj a.
Definition symm_current (a : idx -> option K) := fill perm_curr (fun v => v) a.
Definition antisymm_12 (a : idx -> option K) := fill perm_12 kopp a.
(* numbers cannot be indexed; einsum rejects arrays that are not four-dimensional *)
Definition on_array (f : (idx -> option K) -> idx -> option K) (v : jval) : res jval :=
  match v with
  | JNum _ => Err TypeError
  | JArr 4 a => Ok (JArr 4 (f a))
  | JArr _ _ => Err ValueError
  end.
(* the body of the loop in JMS_to_array, wet_jms.py:98-106 *)
Definition fill_val (k : string) (v : jval) : res jval :=
  bind (if in_class Cl5 k then on_array symm_herm v else Ok v) (fun v =>
  bind (if in_class Cl41 k then on_array symm_current v else Ok v) (fun v =>
  bind (if in_class Cl4 k then on_array (fun a => symm_herm (symm_current a)) v else Ok v) (fun v =>
  if in_class Cl71 k then on_array antisymm_12 v else Ok v))).
Fixpoint fill_all (da : dict string jval) : res (dict string jval) :=
  match da with
  | [] => Ok []
  | (k, v) :: r => bind (fill_val k v) (fun v' => bind (fill_all r) (fun r' => Ok ((k, v') :: r')))
  end.
(* JMS_to_array for a list of keys, wet_jms.py:95-107 *)
Definition jms_to_array_keys (ks : list string) (C : dict string K) : res (dict string jval) :=
  let complete := fold_left (fun d k => dset d k (dgetd C k 0)) ks [] in
  bind (scalar2array complete) fill_all.
(* wet_jms.py:84-94; sectors maps the sector names of the basis to their keys.  An
   unknown sector is only reported by print, so that wc_keys stays unbound. *)
Definition JMS_to_array (basis_sectors : dict string (list string)) (C : dict string K) (sectors : option (list string))
  : res (dict string jval) :=
  match sectors with
  | None => jms_to_array_keys all C
  | Some ss =>
      match fold_right (fun s acc => match dget basis_sectors s, acc with Some ks, Some r => Some (ks ++ r) | _, _ => None end)
              (Some []) ss with
      | Some ks => jms_to_array_keys ks C
      | None => Err UnboundLocalError
      end
  end.

(* _scale_dict, wet_jms.py:219-235: None is the number 1.  smeftutil._d_N as in SymModel. *)
Definition scale_factor (k : string) : option (option (list nat * (idx -> nat))) :=
  if in_class Cl71 k then Some (Some ([3;3;3;3]%nat, d_7))
  else if in_class Cl6 k then Some (Some ([3;3;3;3]%nat, d_6))
  else if in_class Cl4 k || in_class Cl41 k then Some (Some ([3;3;3;3]%nat, d_4))
  else if in_class Cl3 k || in_class Cl5 k then Some (Some ([3;3;3;3]%nat, fun _ => 1%nat))
  else if in_class Cl1 k then Some (Some ([3;3]%nat, fun _ => 1%nat))
  else if in_class Cl0 k then Some None
  else None.
(* v * factor or v / factor with numpy broadcasting of numbers; arrays of another
   shape are rejected (numpy would also broadcast lower-dimensional arrays) *)
Definition apply_factor (f : nat -> K -> K) (k : string) (v : cval K) : res (cval K) :=
  match scale_factor k with
  | None => Err KeyError
  | Some None => Ok (match v with CNum z => CNum (f 1%nat z) | CArr s a => CArr s (fun I => f 1%nat (a I)) end)
  | Some (Some (s, d)) =>
      match v with
      | CNum z => Ok (CArr s (fun I => f (d I) z))
      | CArr s' a => if keqb s' s then Ok (CArr s (fun I => f (d I) (a I))) else Err ValueError
      end
  end.
Fixpoint map_vals (f : string -> cval K -> res (cval K)) (C : dict string (cval K)) : res (dict string (cval K)) :=
  match C with
  | [] => Ok []
  | (k, v) :: r => bind (f k v) (fun v' => bind (map_vals f r) (fun r' => Ok ((k, v') :: r')))
  end.
(* scale_dict_wet, unscale_dict_wet, wet_jms.py:238-249 *)
Definition scale_dict_wet : dict string (cval K) -> res (dict string (cval K)) :=
  map_vals (apply_factor (fun n z => z / kZ (Z.of_nat n))).
Definition unscale_dict_wet : dict string (cval K) -> res (dict string (cval K)) :=
  map_vals (apply_factor (fun n z => kZ (Z.of_nat n) * z)).
End Jms.
Arguments jval K : clear implicits.
