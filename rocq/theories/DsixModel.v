(* The conversion between WCxf coefficients and the SLHA-like format of DSixTools,
   wilson/wcxf/converters/dsixtools.py.

   A parsed file (what pylha.load returns, and what pylha.dump is given) is a dictionary
   from block names to the list of lines of the block; a line [i, j, ..., x] is the pair of
   its indices and its value.  Reading and writing the text itself is done by the external
   package pylha and is not modelled. *)
From Coq Require Import List Bool ZArith Arith Lia String Ascii.
From Verif Require Import PyBase Num SymModel SymClass EftModel WcxfModel DsixData.
Import ListNotations.
Local Open Scope string_scope.
Local Open Scope list_scope.

(* str.upper() on ASCII names *)
Definition up_char (c : ascii) : ascii :=
  let n := nat_of_ascii c in if (97 <=? n)%nat && (n <=? 122)%nat then ascii_of_nat (n - 32) else c.
Fixpoint upper (s : string) : string :=
  match s with EmptyString => EmptyString | String c r => String (up_char c) (upper r) end.

Section M.
Context {K : StarField}.
Local Open Scope K_scope.
Notation cdict := (dict string (cval K)).
Definition line : Type := list Z * K.
Definition blocks : Type := dict string (list line).

(* lha2matrix, dsixtools.py:26-35.  The array is real (np.zeros); the values of a file
   are real numbers. *)
Definition lha2matrix (values : list line) (s : list nat) : res (idx -> K) :=
  fold_left (fun acc v => bind acc (fun M =>
    bind (norm_index s (map (fun i => i - 1)%Z (fst v))) (fun p =>
    Ok (fun I => if prefixb p I then snd v else M I)))) values (Ok (fun _ => 0)).
(* matrix2lha, dsixtools.py:37-43 *)
Definition matrix2lha (s : list nat) (M : idx -> K) : list line :=
  map (fun I => (map (fun j => Z.of_nat j + 1)%Z I, M I)) (all_indices s).

(* lha['BLOCK'][b]['values'] *)
Definition block (d : blocks) (b : string) : res (list line) :=
  match dget d b with Some v => Ok v | None => Err KeyError end.
(* dict(values) *)
Definition line_dict (values : list line) : res (dict Z K) :=
  fold_left (fun acc v => bind acc (fun d => match fst v with
    | [i] => Ok (dset d i (snd v))
    | _ => Err ValueError
    end)) values (Ok []).
(* dict(lha['BLOCK'][b]['values'])[i] *)
Definition read_number (d : blocks) (b : string) (i : Z) : res K :=
  bind (block d b) (fun v => bind (line_dict v) (fun v =>
  match dget v i with Some x => Ok x | None => Err KeyError end)).

(* sm_lha2dict, dsixtools.py:45-75 *)
Definition sm_matrix (d : blocks) (re im : string) : res (cval K) :=
  bind (block d re) (fun v => bind (lha2matrix v [3; 3]%nat) (fun M =>
  match dget d im with
  | None => Ok (CArr [3; 3]%nat M)
  | Some w => bind (lha2matrix w [3; 3]%nat) (fun N => Ok (CArr [3; 3]%nat (fun I => M I + ki * N I)))
  end)).
Definition sm_theta (d : blocks) (i : Z) : res (cval K) :=
  match dget d "THETA" with
  | None => Ok (CNum 0)
  | Some v => bind (line_dict v) (fun v => Ok (CNum (dgetd v i 0)))
  end.
Definition sm_lha2dict (d : blocks) : res cdict :=
  bind (read_number d "GAUGE" 1) (fun g =>
  bind (read_number d "GAUGE" 2) (fun gp =>
  bind (read_number d "GAUGE" 3) (fun gs =>
  bind (read_number d "SCALAR" 1) (fun lam =>
  bind (read_number d "SCALAR" 2) (fun m2 =>
  bind (sm_matrix d "GU" "IMGU") (fun Gu =>
  bind (sm_matrix d "GD" "IMGD") (fun Gd =>
  bind (sm_matrix d "GE" "IMGE") (fun Ge =>
  bind (sm_theta d 1) (fun th =>
  bind (sm_theta d 2) (fun thp =>
  bind (sm_theta d 3) (fun ths =>
  Ok [("g", CNum g); ("gp", CNum gp); ("gs", CNum gs); ("Lambda", CNum lam); ("m2", CNum m2);
      ("Gu", Gu); ("Gd", Gd); ("Ge", Ge); ("Theta", th); ("Thetap", thp); ("Thetas", ths)]))))))))))).

(* d[k].real of a number (the real part of an array is an array, which no line holds) *)
Definition number (d : cdict) (k : string) : res K :=
  match dget d k with None => Err KeyError | Some (CNum z) => Ok (kre z) | Some (CArr _ _) => Err TypeError end.
Definition part_lines (d : cdict) (k : string) (part : K -> K) : res (list line) :=
  match dget d k with
  | None => Err KeyError
  | Some (CNum _) => Err AttributeError               (* a number has no shape *)
  | Some (CArr s a) => Ok (matrix2lha s (fun I => part (a I)))
  end.
(* sm_dict2lha, dsixtools.py:77-91 *)
Definition sm_dict2lha (d : cdict) : res blocks :=
  bind (number d "g") (fun g => bind (number d "gp") (fun gp => bind (number d "gs") (fun gs =>
  bind (number d "Lambda") (fun lam => bind (number d "m2") (fun m2 =>
  bind (part_lines d "Gu" kre) (fun gu => bind (part_lines d "Gu" kim) (fun igu =>
  bind (part_lines d "Gd" kre) (fun gd => bind (part_lines d "Gd" kim) (fun igd =>
  bind (part_lines d "Ge" kre) (fun ge => bind (part_lines d "Ge" kim) (fun ige =>
  bind (number d "Theta") (fun th => bind (number d "Thetap") (fun thp => bind (number d "Thetas") (fun ths =>
  Ok [("GAUGE", [([1]%Z, g); ([2]%Z, gp); ([3]%Z, gs)]);
      ("SCALAR", [([1]%Z, lam); ([2]%Z, m2)]);
      ("GU", gu); ("IMGU", igu); ("GD", gd); ("IMGD", igd); ("GE", ge); ("IMGE", ige);
      ("THETA", [([1]%Z, th); ([2]%Z, thp); ([3]%Z, ths)])])))))))))))))).

(* WC_dict_0f, dsixtools.py:94-110 *)
Definition WC_dict_0f : dict string (string * Z) :=
  [("G", ("WC1", 1)); ("Gtilde", ("WC1", 2)); ("W", ("WC1", 3)); ("Wtilde", ("WC1", 4));
   ("phi", ("WC2", 1)); ("phiBox", ("WC3", 1)); ("phiD", ("WC3", 2));
   ("phiG", ("WC4", 1)); ("phiB", ("WC4", 2)); ("phiW", ("WC4", 3)); ("phiWB", ("WC4", 4));
   ("phiGtilde", ("WC4", 5)); ("phiBtilde", ("WC4", 6)); ("phiWtilde", ("WC4", 7)); ("phiWtildeB", ("WC4", 8))]%Z.
(* lha2scale, dsixtools.py:112-115 *)
Definition lha2scale (d : blocks) : res K := read_number d "SCALES" 1.

Variable E : eft.                                       (* smeftutil *)
Definition reblock (name : string) : string := ("WC" ++ upper name)%string.
Definition imblock (name : string) : string := ("IMWC" ++ upper name)%string.
Definition except_key {A} (r : res A) (dflt : A) : res A :=
  match r with Err KeyError => Ok dflt | _ => r end.

(* wc_lha2dict, dsixtools.py:117-145; the two loops over the operators with 2 and with 4
   fermions differ in the shape only (.real of a real array is the array) *)
Definition read_array (d : blocks) (s : list nat) (k : string) : res (cval K) :=
  bind (except_key (bind (block d (reblock k)) (fun v => lha2matrix v s)) (fun _ => 0)) (fun M =>
  bind (except_key (bind (block d (imblock k)) (fun v => rmap (fun N I => M I + ki * N I) (lha2matrix v s))) M) (fun M =>
  Ok (CArr s M))).
Definition read_all {A} (f : A -> res (cval K)) (name : A -> string) (l : list A) (C : res cdict) : res cdict :=
  fold_left (fun acc x => bind acc (fun C => bind (f x) (fun v => Ok (dset C (name x) v)))) l C.
Definition wc_lha2dict (d : blocks) : res cdict :=
  read_all (read_array d [3; 3; 3; 3]%nat) (fun k => k) (e_keys4 E)
  (read_all (read_array d [3; 3]%nat) (fun k => k) (e_keys2 E)
  (read_all (fun kv => rmap CNum (except_key (read_number d (fst (snd kv)) (snd (snd kv))) 0)) fst WC_dict_0f (Ok []))).

(* wc_dict2lha, dsixtools.py:147-201 *)
Definition append (d : blocks) (b : string) (l : line) : blocks := dset d b (dgetd d b [] ++ [l]).
Definition ensure (d : blocks) (b : string) : blocks := if dmem d b then d else dset d b [].
Definition write_number (wc : cdict) (d : blocks) (kv : string * (string * Z)) : res blocks :=
  let '(name, (b, i)) := kv in
  let d := ensure d b in
  match dget wc name with
  | None => Err KeyError
  | Some (CArr _ _) => Err ValueError                   (* truth value of an array *)
  | Some (CNum z) => Ok (if kdec z 0 then d else append d b ([i], kre z))
  end.
(* wc[name][i, j, ...] *)
Definition element (wc : cdict) (name : string) (I : idx) : res K :=
  match dget wc name with
  | None => Err KeyError
  | Some (CNum _) => Err TypeError
  | Some (CArr s a) => if in_shape s I then Ok (a I) else Err IndexError
  end.
Definition table (t : dict string (list idx)) (name : string) : res (list idx) :=
  match dget t name with Some l => Ok l | None => Err KeyError end.
Definition write_element (wc : cdict) (skip_redundant skip_zero : bool) (name : string) (d : blocks) (I : idx) : res blocks :=
  bind (table redundant_elements name) (fun red =>
  if kmem I red && skip_redundant then Ok d else
  bind (element wc name I) (fun z =>
  let pos := map (fun j => Z.of_nat j + 1)%Z I in
  let d := if negb (kdec (kre z) 0) || negb skip_zero then append d (reblock name) (pos, kre z) else d in
  if negb (kdec (kim z) 0) || negb skip_zero then
    bind (table vanishing_im_parts name) (fun van =>
    Ok (if kmem I van then d else append d (imblock name) (pos, kim z)))
  else Ok d)).
Definition write_array (wc : cdict) (sr sz : bool) (s : list nat) (d : blocks) (name : string) : res blocks :=
  fold_left (fun acc I => bind acc (fun d => write_element wc sr sz name d I)) (all_indices s)
    (Ok (ensure (ensure d (reblock name)) (imblock name))).
Definition fold_res {A B} (f : B -> A -> res B) (l : list A) (b : res B) : res B :=
  fold_left (fun acc x => bind acc (fun d => f d x)) l b.
Definition wc_dict2lha (wc : cdict) (skip_redundant skip_zero : bool) : res blocks :=
  rmap (dfilter (fun _ v => match v with [] => false | _ => true end))
  (fold_res (write_array wc skip_redundant skip_zero [3; 3; 3; 3]%nat) (e_keys4 E)
  (fold_res (write_array wc skip_redundant skip_zero [3; 3]%nat) (e_keys2 E)
  (fold_res (write_number wc) WC_dict_0f (Ok [])))).

(* ---------- class SMEFTio, dsixtools.py:204-348 ---------- *)
Record smeftio := mkIO { C_in : option cdict; scale_in : option K; scale_high : option K }.
Definition new_io : smeftio := mkIO None None None.
(* set_initial, dsixtools.py:212-218 *)
Definition set_initial (C : cdict) (sin shigh : K) : smeftio := mkIO (Some C) (Some sin) (Some shigh).
(* load_initial, dsixtools.py:220-238; a stream without BLOCK is None *)
Definition merge (streams : list (option blocks)) : res blocks :=
  fold_left (fun acc s => bind acc (fun d => match s with None => Err ValueError | Some b => Ok (dupdate d b) end)) streams (Ok []).
Definition load_initial (streams : list (option blocks)) : res smeftio :=
  bind (merge streams) (fun d =>
  bind (wc_lha2dict d) (fun C =>
  bind (sm_lha2dict d) (fun sm =>
  bind (lha2scale d) (fun s =>
  bind (eft_symmetrize E (dupdate C sm)) (fun C => Ok (mkIO (Some C) (Some s) (Some s))))))).

Definition keys_dim5 : list string := ["llphiphi"].
Definition keys_dim6 : list string := filter (fun k => negb (kmem k keys_dim5)) (uniq (e_wc_keys E)).
Definition scale_val (x : K) (v : cval K) : cval K :=
  match v with CNum z => CNum (z * x) | CArr s a => CArr s (fun I => a I * x) end.
Definition scale_keys (x : K) (keys : list string) (C : cdict) : cdict :=
  fold_left (fun C k => match dget C k with Some v => dset C k (scale_val x v) | None => C end) keys C.
Variable dim4 : list string.                           (* smeftutil.dim4_keys *)
Definition fill_zeros (C : cdict) : cdict :=
  fold_left (fun C ks => if dmem C (fst ks) || kmem (fst ks) dim4 then C else
    dset C (fst ks) (match snd ks with None => CNum 0 | Some s => CArr s (fun _ => 0) end)) (e_shape E) C.
(* set_initial_wcxf, dsixtools.py:240-282 *)
Definition set_initial_wcxf (io : smeftio) (wc : WC K) (high : option K) : res smeftio :=
  if negb (keqb (wc_eft wc) "SMEFT") then Err ValueError
  else if negb (keqb (wc_basis wc) "Warsaw") then Err ValueError
  else
    let h := match high with Some h => h | None => match scale_high io with Some h => h | None => wc_scale wc end end in
    bind (wcxf2arrays E (wc_dict wc)) (fun C =>
    let C := scale_keys h keys_dim5 C in
    let C := scale_keys (h * h) keys_dim6 C in
    bind (eft_symmetrize E C) (fun C =>
    let C := fill_zeros C in
    Ok (mkIO (Some (match C_in io with None => C | Some C0 => dupdate C0 C end)) (Some (wc_scale wc)) (Some h)))).
(* dump, dsixtools.py:296-311, up to the call of pylha.dump; a scale that was never set
   is None, which pylha cannot write *)
Definition io_dump (io : smeftio) (C_out : cdict) (scale_out : option K) (skip_redundant : bool) : res blocks :=
  match scale_high io with
  | None => Err TypeError
  | Some h =>
    let sc := match scale_out with Some s => [([1]%Z, h); ([2]%Z, s)] | None => [([1]%Z, h)] end in
    bind (wc_dict2lha C_out skip_redundant true) (fun wc => Ok (dupdate [("SCALES", sc)] wc))
  end.
(* get_wcxf, dsixtools.py:313-337; all = wcxf.Basis['SMEFT', 'Warsaw'].all_wcs.
   Division by a scale that is zero is not modelled. *)
Definition get_wcxf (io : smeftio) (C_out : cdict) (scale_out : K) (hash : nat) : res (WC K) :=
  match scale_high io with
  | None => Err TypeError
  | Some h =>
    let d := dfilter (fun k v => kmem k (e_all E) && negb (kdec v 0)) (arrays2wcxf C_out) in
    let d := dmap (fun k v => if kmem (name_of k) keys_dim5 then v / h else v) d in
    let d := dmap (fun k v => if kmem (name_of k) keys_dim6 then v / (h * h) else v) d in
    Ok (mkWC "SMEFT" "Warsaw" scale_out (dict2values d) [] hash)
  end.
(* wcxf2dsixtools, dsixtools2wcxf, dsixtools.py:370-378, without the text layers *)
Definition wcxf2dsixtools (wc : WC K) : res blocks :=
  bind (set_initial_wcxf new_io wc None) (fun io =>
  match C_in io with None => Err TypeError | Some C => io_dump io C None true end).
Definition dsixtools2wcxf (streams : list (option blocks)) (hash : nat) : res (WC K) :=
  bind (load_initial streams) (fun io =>
  match C_in io, scale_in io with Some C, Some s => get_wcxf io C s hash | _, _ => Err TypeError end).
End M.
