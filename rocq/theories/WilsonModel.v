(* Model of /repo/wilson/classes.py: ConfigurableClass and Wilson. *)
From Coq Require Import List Bool String Ascii ZArith Lia.
From Verif Require Import PyBase Num WcxfModel.
Import ListNotations.
Local Open Scope string_scope.

(* ------------------------------------------------------------------ *)
(* Option values and the voluptuous schema *)
Section Options.
Context {K : StarField}.
Local Open Scope K_scope.

(* Python values a user can pass to set_option *)
Inductive pyval := PNum (x : K) | PStr (s : string) | PDict (d : list (string * pyval)) | PNone.
(* values held in an option dictionary *)
Inductive oval := ONum (x : K) | OStr (s : string) | ODict (d : dict string K).

(* float(s) for a string; external *)
Variable parse_float : string -> option K.

(* vol.Coerce(float): float(x) fails on complex numbers, None, dictionaries and
   strings that are no numerals; voluptuous turns that into Invalid *)
Definition coerce_float (v : pyval) : res K :=
  match v with
  | PNum x => if krealb x then Ok x else Err Invalid
  | PStr s => match parse_float s with Some x => Ok x | None => Err Invalid end
  | PDict _ | PNone => Err Invalid
  end.
Fixpoint coerce_dict (d : list (string * pyval)) : res (dict string K) :=
  match d with
  | [] => Ok []
  | (k, v) :: d' => bind (coerce_float v) (fun x => bind (coerce_dict d') (fun r => Ok ((k, x) :: r)))
  end.

Definition order_keys := ["qed_order"; "qcd_order"; "smeft_matching_order"].
Definition scale_keys := ["smeft_matchingscale"; "mb_matchingscale"; "mc_matchingscale"].
(* _option_schema, classes.py:122-131, applied to {key: value}; unknown keys are
   rejected (voluptuous default) *)
Definition option_schema (key : string) (v : pyval) : res oval :=
  if keqb key "smeft_accuracy" then
    match v with
    | PStr s => if kmem s ["integrate"; "leadinglog"] then Ok (OStr s) else Err Invalid
    | _ => Err Invalid
    end
  else if kmem key order_keys then
    match v with
    | PNum x => if kdec x 0 || kdec x 1 then Ok (ONum x) else Err Invalid
    | _ => Err Invalid
    end
  else if kmem key scale_keys then rmap ONum (coerce_float v)
  else if keqb key "parameters" then
    match v with
    | PDict d => rmap ODict (coerce_dict d)
    | _ => Err Invalid
    end
  else Err Invalid.

(* substring test, `'delta' in value` for a string *)
Definition contains (sub s : string) : bool :=
  match String.index 0 sub s with Some _ => true | None => false end.

(* The backwards-compatibility block, classes.py:54-60 = 73-79.  Returns the
   (possibly mutated) argument; raises TypeError where Python does. *)
Definition rename_delta (key : string) (v : pyval) : res pyval :=
  if keqb key "parameters" then
    match v with
    | PDict d => match dget d "delta" with
                 | Some x => Ok (PDict (ddel (dset d "gamma" x) "delta"))
                 | None => Ok v
                 end
    | PStr s => if contains "delta" s then Err TypeError else Ok v
    | PNum _ | PNone => Err TypeError            (* argument is not iterable *)
    end
  else Ok v.

(* what set_option / set_default_option store: classes.py:54-62 and 73-81 *)
Definition accept (key : string) (v : pyval) : res oval :=
  bind (rename_delta key v) (option_schema key).

(* _default_options, classes.py:110-118.  The numerical defaults are arguments:
   91.1876, 4.2, 1.3 *)
Variables (c_ew c_mb c_mc : K).
Definition builtin_options : dict string oval :=
  [("smeft_accuracy", OStr "integrate"); ("qed_order", ONum 1); ("qcd_order", ONum 1);
   ("smeft_matching_order", ONum 0); ("smeft_matchingscale", ONum c_ew);
   ("mb_matchingscale", ONum c_mb); ("mc_matchingscale", ONum c_mc); ("parameters", ODict [])].

(* ------------------------------------------------------------------ *)
(* Several Wilson objects and the class defaults, with object identity of the
   parameter dictionaries: stored dictionaries live in a heap, because
   `_default_options.copy()` (line 41) is shallow and get_option (line 88) returns
   the stored object itself.  Only the dictionaries stored as option values are
   heap objects; the dictionary passed to set_option is copied by the schema. *)
Inductive sval := SNum (x : K) | SStr (s : string) | SRef (l : nat).
Record ostate := mkO { o_heap : list (dict string K); o_defaults : dict string sval;
                       o_insts : list (dict string sval) }.
(* store a value: dictionaries get a fresh location *)
Definition alloc (h : list (dict string K)) (v : oval) : list (dict string K) * sval :=
  match v with
  | ONum x => (h, SNum x)
  | OStr s => (h, SStr s)
  | ODict d => ((h ++ [d])%list, SRef (List.length h))
  end.
Definition deref (h : list (dict string K)) (v : sval) : oval :=
  match v with SNum x => ONum x | SStr s => OStr s | SRef l => ODict (nth l h []) end.
Definition alloc_all (h : list (dict string K)) (d : dict string oval) :=
  fold_left (fun hd kv => let '(h', s) := alloc (fst hd) (snd kv) in (h', (snd hd ++ [(fst kv, s)])%list)) d (h, []).
(* the class right after import *)
Definition o_init : ostate :=
  let '(h, d) := alloc_all [] builtin_options in mkO h d [].

Inductive oop :=
| ONew                                     (* Wilson(...), line 41 *)
| OSet (i : nat) (key : string) (v : pyval)        (* w_i.set_option(key, v) *)
| OSetDefault (key : string) (v : pyval)     (* Wilson.set_default_option(key, v) *)
| OMutate (i : nat) (p : string) (x : K).      (* w_i.get_option('parameters')[p] = x *)

Definition replace_nth {A} (n : nat) (x : A) (l : list A) : list A :=
  List.app (firstn n l) match skipn n l with [] => [] | _ :: r => x :: r end.

Definition o_get (s : ostate) (i : nat) (key : string) : res oval :=
  match nth_error (o_insts s) i with
  | None => Err AttributeError                                   (* no such object *)
  | Some opts =>
      (* self._options.get(key, self._default_options[key]), line 88 *)
      match dget (o_defaults s) key with
      | None => Err KeyError
      | Some dflt => Ok (deref (o_heap s) (dgetd opts key dflt))
      end
  end.

Definition o_step (s : ostate) (op : oop) : ostate * res unit :=
  match op with
  | ONew => (mkO (o_heap s) (o_defaults s) (o_insts s ++ [o_defaults s])%list, Ok tt)
  | OSet i key v =>
      match nth_error (o_insts s) i with
      | None => (s, Err AttributeError)
      | Some opts =>
          match accept key v with
          | Err e => (s, Err e)
          | Ok x => let '(h, sv) := alloc (o_heap s) x in
                    (mkO h (o_defaults s) (replace_nth i (dset opts key sv) (o_insts s)), Ok tt)
          end
      end
  | OSetDefault key v =>
      match accept key v with
      | Err e => (s, Err e)
      | Ok x => let '(h, sv) := alloc (o_heap s) x in
                (mkO h (dset (o_defaults s) key sv) (o_insts s), Ok tt)
      end
  | OMutate i p x =>
      match nth_error (o_insts s) i with
      | Some opts =>
          match dgetd opts "parameters" (SNum x) with
          | SRef l => (mkO (replace_nth l (dset (nth l (o_heap s) []) p x) (o_heap s))
                           (o_defaults s) (o_insts s), Ok tt)
          | _ => (s, Err TypeError)
          end
      | None => (s, Err AttributeError)
      end
  end.
Definition o_run (s : ostate) (ops : list oop) : ostate := fold_left (fun s op => fst (o_step s op)) ops s.
End Options.
Arguments pyval K : clear implicits.
Arguments oval K : clear implicits.
Arguments sval K : clear implicits.
Arguments ostate K : clear implicits.
Arguments oop K : clear implicits.

(* ------------------------------------------------------------------ *)
(* match_run and the cache *)
Section MatchRun.
Context {K : StarField}.
Local Open Scope K_scope.
Notation P := (dict string K).
(* sectors argument: None is the string 'all', Some l a tuple of names *)
Definition sectors := option (list string).

(* The world match_run runs in: the registries, the numerical evolution of SMEFT
   (SMEFT(wc).run: run/smeft/classes.py:64-77, 207-277 without the wrapping of
   the result), the dictionary computed by WETrunner._run_dict
   (run/wet/classes.py:72-84) and the default parameters (parameters.py). *)
Record world := mkWorld {
  w_tr : tr_reg K P; w_ma : ma_reg K P; w_br : basis_reg K;
  w_smeft : dict string K -> K -> K -> string -> res (dict string K);
     (* coefficients, input scale, output scale, accuracy *)
  w_wet : string -> dict string K -> K -> K -> K -> K -> sectors -> res (dict string K);
     (* eft, coefficients, input scale, output scale, qed_order, qcd_order, sectors *)
  w_p : P }.
Variable W : world.

(* the steps taken, with the parameters they were given *)
Inductive event :=
| EvTranslate (eft from to : string) (params : option P)
| EvMatch (from_eft to_eft : string) (scale : K) (params : option P)
| EvSmeftRun (scale_in scale_out : K) (params : option P)
| EvWetRun (eft : string) (scale_in scale_out : K) (params : option P).

Definition cache := dict string (dict K (dict string (dict sectors (WC K)))).
(* computations that may raise, change the cache and take steps *)
Definition M (A : Type) : Type := cache -> (res A * cache) * list event.
Definition ret {A} (x : A) : M A := fun c => ((Ok x, c), []).
Definition raise {A} (e : exn) : M A := fun c => ((Err e, c), []).
Definition lift {A} (r : res A) : M A := fun c => ((r, c), []).
Definition log (e : event) : M unit := fun c => ((Ok tt, c), [e]).
Definition mbind {A B} (m : M A) (f : A -> M B) : M B := fun c =>
  match m c with
  | ((Ok a, c'), l) => let '(r, l') := f a c' in (r, (l ++ l')%list)
  | ((Err e, c'), l) => ((Err e, c'), l)
  end.
Notation "'do' x <- m ;; f" := (mbind m (fun x => f)) (at level 200, x name, m at level 100, f at level 200, right associativity).
Notation "m ;; f" := (mbind m (fun _ => f)) (at level 199, f at level 200, right associativity).

(* _get_from_cache, classes.py:287-293 *)
Definition get_cache (c : cache) (sec : sectors) (scale : K) (eft basis : string) : option (WC K) :=
  match dget c eft with
  | None => None
  | Some c1 => match dget c1 scale with
    | None => None
    | Some c2 => match dget c2 basis with
      | None => None
      | Some c3 => dget c3 sec
      end
    end
  end.
(* _set_cache, classes.py:295-303 *)
Definition set_cache (c : cache) (sec : sectors) (scale : K) (eft basis : string) (w : WC K) : cache :=
  match dget c eft with
  | None => dset c eft [(scale, [(basis, [(sec, w)])])]
  | Some c1 => match dget c1 scale with
    | None => dset c eft (dset c1 scale [(basis, [(sec, w)])])
    | Some c2 => match dget c2 basis with
      | None => dset c eft (dset c1 scale (dset c2 basis [(sec, w)]))
      | Some c3 => dset c eft (dset c1 scale (dset c2 basis (dset c3 sec w)))
      end
    end
  end.
Definition getM (sec : sectors) (scale : K) (eft basis : string) : M (option (WC K)) :=
  fun c => ((Ok (get_cache c sec scale eft basis), c), []).
Definition setM (sec : sectors) (scale : K) (eft basis : string) (w : WC K) : M unit :=
  fun c => ((Ok tt, set_cache c sec scale eft basis w), []).

(* The options match_run reads, as typed fields (see typed_options) *)
Record opts := mkOpts {
  op_accuracy : string; op_qed : K; op_qcd : K; op_order : K;
  op_ew : K; op_mb : K; op_mc : K; op_params : P }.
Definition typed_options (o : dict string (oval K)) : option opts :=
  match dget o "smeft_accuracy", dget o "qed_order", dget o "qcd_order", dget o "smeft_matching_order",
        dget o "smeft_matchingscale", dget o "mb_matchingscale", dget o "mc_matchingscale", dget o "parameters" with
  | Some (OStr a), Some (ONum qe), Some (ONum qc), Some (ONum lo), Some (ONum ew), Some (ONum mb),
    Some (ONum mc), Some (ODict p) => Some (mkOpts a qe qc lo ew mb mc p)
  | _, _, _, _, _, _, _, _ => None
  end.

(* Wilson.parameters, classes.py:176-183 *)
Definition parameters (o : opts) : P := dupdate (w_p W) (op_params o).
(* Wilson.matching_parameters, classes.py:185-192 *)
Definition matching_parameters (o : opts) : P := dset (parameters o) "loop_order" (op_order o).

(* Identity of the objects created on the way is not modelled here: every new WC
   gets the hash 0, so equality of results is equality of contents. *)
Definition translateM (w : WC K) (b : string) (p : option P) (s : sectors) : M (WC K) :=
  log (EvTranslate (wc_eft w) (wc_basis w) b p) ;; lift (wc_translate (w_tr W) w b p s 0).
Definition matchM (w : WC K) (e b : string) (p : option P) : M (WC K) :=
  log (EvMatch (wc_eft w) e (wc_scale w) p) ;; lift (wc_match (w_ma W) w e b p 0).

(* SMEFT(wc).run(scale, accuracy): run/smeft/classes.py:59-62 (checks),
   271-277 (run), 79-89 (_to_wcxf).  No parameters argument exists. *)
Definition smeft_runM (w : WC K) (scale : K) (acc : string) : M (WC K) :=
  if negb (keqb (wc_eft w) "SMEFT") then raise ValueError
  else if negb (keqb (wc_basis w) "Warsaw") then raise ValueError
  else
  log (EvSmeftRun (wc_scale w) scale None) ;;
  do d <- lift (if kmem acc ["integrate"; "leadinglog"]
                then w_smeft W (wc_dict w) (wc_scale w) scale acc else Err ValueError) ;;
  ret (mkWC "SMEFT" "Warsaw" scale (dict2values d) [] 0).

(* WETrunner(wc, qed_order, qcd_order): run/wet/classes.py:36-53; unsupported
   EFTs leave `f` unset, which fails with AttributeError in run *)
Definition wet_init (w : WC K) : M unit :=
  if keqb (wc_basis w) "JMS" then ret tt else raise AssertionError.
(* WETrunner.run(scale, sectors): run/wet/classes.py:86-104 *)
Definition wet_runM (w : WC K) (o : opts) (scale : K) (sec : sectors) : M (WC K) :=
  if negb (kmem (wc_eft w) ["WET"; "WET-4"; "WET-3"]) then raise AttributeError
  else
  log (EvWetRun (wc_eft w) (wc_scale w) scale None) ;;
  do d <- lift (w_wet W (wc_eft w) (wc_dict w) (wc_scale w) scale (op_qed o) (op_qcd o) sec) ;;
  do b <- lift (reg_get (w_br W) (wc_eft w, "JMS")) ;;
  do wcs <- lift (all_wcs b) ;;
  ret (mkWC (wc_eft w) "JMS" scale
         (dict2values (dfilter (fun k v => negb (kdec v 0) && kmem k wcs) d)) [] 0).

(* the part of match_run after the WETrunner has been built (lines 257-282);
   w is the coefficient set the runner holds *)
Definition wet_part (o : opts) (w : WC K) (scale : K) (eft basis : string) (sec : sectors) : M (WC K) :=
  let p := Some (parameters o) in
  let mp := Some (matching_parameters o) in
  if keqb eft (wc_eft w) then
    do w1 <- wet_runM w o scale sec ;;
    do out <- translateM w1 basis p sec ;;
    setM sec scale eft basis out ;; ret out
  else if keqb eft "WET-4" && keqb (wc_eft w) "WET" then
    do w1 <- wet_runM w o (op_mb o) sec ;;
    do wmb <- matchM w1 "WET-4" "JMS" mp ;;
    wet_init wmb ;;
    do w2 <- wet_runM wmb o scale sec ;;
    do out <- translateM w2 basis p sec ;;
    setM sec scale "WET-4" basis out ;; ret out
  else if keqb eft "WET-3" && keqb (wc_eft w) "WET-4" then
    do w1 <- wet_runM w o (op_mc o) sec ;;
    do wmc <- matchM w1 "WET-3" "JMS" mp ;;
    wet_init wmc ;;
    do w2 <- wet_runM wmc o scale sec ;;
    do out <- translateM w2 basis p sec ;;
    setM sec scale "WET-3" basis out ;; ret out
  else if keqb eft "WET-3" && keqb (wc_eft w) "WET" then
    do w1 <- wet_runM w o (op_mb o) sec ;;
    do wmb <- matchM w1 "WET-4" "JMS" mp ;;
    wet_init wmb ;;
    do w2 <- wet_runM wmb o (op_mc o) sec ;;
    do wmc <- matchM w2 "WET-3" "JMS" mp ;;
    wet_init wmc ;;
    do w3 <- wet_runM wmc o scale sec ;;
    do out <- translateM w3 basis p sec ;;
    setM sec scale "WET-3" basis out ;; ret out
  else raise ValueError.

(* SMEFT -> WET at the electroweak scale, lines 245-250 *)
Definition ew_match (o : opts) (w : WC K) : M (WC K) :=
  if keqb (wc_scale w) (op_ew o) then
    matchM w "WET" "JMS" (Some (matching_parameters o))
  else
    do w1 <- translateM w "Warsaw" (Some (parameters o)) None ;;
    do w2 <- smeft_runM w1 (op_ew o) (op_accuracy o) ;;
    matchM w2 "WET" "JMS" (Some (matching_parameters o)).

(* Wilson.match_run, classes.py:201-282; sectors='all' becomes None for the
   translators (lines 220-224), which is the same value here *)
Definition match_run (o : opts) (w : WC K) (scale : K) (eft basis : string) (sec : sectors) : M (WC K) :=
  do cached <- getM sec scale eft basis ;;
  match cached with
  | Some out => ret out
  | None =>
    if keqb (wc_basis w) basis && keqb (wc_eft w) eft && keqb scale (wc_scale w) then ret w
    else if keqb (wc_eft w) eft && keqb scale (wc_scale w) then
      do out <- translateM w basis (Some (parameters o)) sec ;;
      setM sec scale eft basis out ;; ret out
    else if keqb (wc_eft w) "SMEFT" then
      if keqb eft "SMEFT" then
        do w1 <- translateM w "Warsaw" (Some (parameters o)) sec ;;
        do w2 <- smeft_runM w1 scale (op_accuracy o) ;;
        do out <- translateM w2 basis None None ;;
        setM None scale "SMEFT" (wc_basis out) out ;; ret out
      else
        do hit <- getM None (op_ew o) "WET" "JMS" ;;
        do wew <- match hit with Some x => ret x | None => ew_match o w end ;;
        setM None (op_ew o) (wc_eft wew) (wc_basis wew) wew ;;
        wet_init wew ;;
        wet_part o wew scale eft basis sec
    else if kmem (wc_eft w) ["WET"; "WET-4"; "WET-3"] then
      do w1 <- translateM w "JMS" (Some (parameters o)) sec ;;
      wet_init w1 ;;
      wet_part o w1 scale eft basis sec
    else raise ValueError
  end.

(* ---- a Wilson object as a state machine ---- *)
Record wstate := mkW { s_wc : WC K; s_opts : dict string (oval K); s_cache : cache }.
Inductive wop :=
| WMatchRun (scale : K) (eft basis : string) (sec : sectors)
| WSetOption (key : string) (v : pyval K)
| WClearCache.
Variable parse_float : string -> option K.
(* Wilson.__init__, classes.py:133-150, with the class defaults in force *)
Definition wilson_init (er : eft_reg K) (defaults : dict string (oval K))
           (wcdict : dict string K) (scale : K) (eft basis : string) (h : nat) : res wstate :=
  let w := mkWC eft basis scale (dict2values wcdict) [] h in
  bind (wc_validate er (w_br W) w) (fun _ => Ok (mkW w defaults [])).
(* Wilson.from_wc, classes.py:158-161 *)
Definition wilson_from_wc er defaults (w : WC K) (h : nat) : res wstate :=
  wilson_init er defaults (wc_dict w) (wc_scale w) (wc_eft w) (wc_basis w) h.
Definition run_request (s : wstate) (scale : K) (eft basis : string) (sec : sectors)
  : (res (WC K) * cache) * list event :=
  match typed_options (s_opts s) with
  | Some o => match_run o (s_wc s) scale eft basis sec (s_cache s)
  | None => ((Err TypeError, s_cache s), [])
  end.
Definition wstep (s : wstate) (op : wop) : wstate :=
  match op with
  | WMatchRun scale eft basis sec =>
      mkW (s_wc s) (s_opts s) (snd (fst (run_request s scale eft basis sec)))
  | WSetOption key v =>
      (* set_option, classes.py:64-82; on failure nothing happens to the object *)
      match accept parse_float key v with
      | Ok x => mkW (s_wc s) (dset (s_opts s) key x) []
      | Err _ => s
      end
  | WClearCache => mkW (s_wc s) (s_opts s) []          (* clear_cache, 284-285 *)
  end.
Definition wrun (s : wstate) (ops : list wop) : wstate := fold_left wstep ops s.
Definition answer (s : wstate) (scale : K) (eft basis : string) (sec : sectors) : res (WC K) :=
  fst (fst (run_request s scale eft basis sec)).
(* Wilson.__hash__, classes.py:152-156: iterating a dict gives its keys, so the
   frozenset is the set of option names; hashing itself is an arbitrary function
   of the pair *)
Definition wilson_hash {H : Type} (hash : nat -> list string -> H) (s : wstate) : H :=
  hash (wc_hash (s_wc s)) (dkeys (s_opts s)).
End MatchRun.
Arguments world K : clear implicits.
Arguments event K : clear implicits.
Arguments cache K : clear implicits.
Arguments opts K : clear implicits.
Arguments wstate K : clear implicits.
Arguments wop K : clear implicits.
