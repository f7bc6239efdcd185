(* Model of /repo/wilson/wcxf/classes.py (WCxf file objects, registries,
   translators and matchers). *)
From Coq Require Import List Bool String Ascii ZArith Lia.
From Verif Require Import PyBase Num.
Import ListNotations.
Local Open Scope string_scope.

(* ------------------------------------------------------------------ *)
(* Named instances: wcxf/classes.py:120-155 (NamedInstanceClass).
   The class attribute `instances` does not exist until the first instance
   is created (or clear_all is called): None.
   Simplification: each class (EFT, Basis, Translator, Matcher) owns its own
   registry; sharing through further subclassing is not modelled. *)
Section Registry.
Context {N I : Type} `{EqKey N}.
Definition registry := option (dict N I).
Definition reg_dict (r : registry) : dict N I := match r with Some d => d | None => [] end.
(* __init__, lines 138-142 *)
Definition reg_create (r : registry) (n : N) (i : I) : registry := Some (dset (reg_dict r) n i).
(* get_instance, lines 144-146 *)
Definition reg_get (r : registry) (n : N) : res I :=
  match r with
  | None => Err AttributeError
  | Some d => match dget d n with Some i => Ok i | None => Err KeyError end
  end.
(* del_instance, lines 148-150 *)
Definition reg_del (r : registry) (n : N) : registry * option exn :=
  match r with
  | None => (r, Some AttributeError)
  | Some d => if dmem d n then (Some (ddel d n), None) else (r, Some KeyError)
  end.
(* clear_all, lines 152-155 *)
Definition reg_clear (r : registry) : registry := Some [].

Inductive reg_op := RCreate (n : N) (i : I) | RDel (n : N) | RClear.
Definition reg_step (r : registry) (o : reg_op) : registry :=
  match o with
  | RCreate n i => reg_create r n i
  | RDel n => fst (reg_del r n)
  | RClear => reg_clear r
  end.
Definition reg_run (r : registry) (ops : list reg_op) : registry := fold_left reg_step ops r.
(* iteration `for x in cls.instances`, used by known_bases/known_translators *)
Definition reg_names (r : registry) : res (list N) :=
  match r with None => Err AttributeError | Some d => Ok (dkeys d) end.
End Registry.
Arguments registry N I : clear implicits.
Arguments reg_op N I : clear implicits.

(* ------------------------------------------------------------------ *)
(* Files as attribute dictionaries *)
Section Files.
Context {K : StarField}.

(* JSON/YAML values.  The text encoding itself (json/yaml libraries) is trusted
   to be lossless on these. *)
Inductive jval :=
| JNull | JBool (b : bool) | JNum (x : K) | JStr (s : string)
| JList (l : list jval) | JObj (o : list (string * jval)).

(* Wilson coefficient values in a file: a number or a mapping with optional
   keys 'Re', 'Im' (wcxf/classes.py:340-347). *)
Inductive value := VNum (x : K) | VReIm (re im : option K).

Local Open Scope K_scope.
(* WC._to_number, wcxf/classes.py:340-347 (float() of the parts is the
   identity on the model's numbers) *)
Definition to_number (v : value) : K :=
  match v with
  | VNum x => x
  | VReIm re im =>
      (match re with Some x => x | None => 0 end) + ki * (match im with Some x => x | None => 0 end)
  end.
(* WC._to_complex_dict, wcxf/classes.py:349-356; `v.imag != 0` *)
Definition to_complex_dict (z : K) : value :=
  if kdec (kim z) 0 then VNum (kre z) else VReIm (Some (kre z)) (Some (kim z)).
(* WC.dict2values, wcxf/classes.py:358-360 *)
Definition dict2values (d : dict string K) : dict string value := dmap (fun _ => to_complex_dict) d.

(* WC objects, wcxf/classes.py:322-338.  wc_hash stands for `_hash`, which is
   drawn at random at construction and so identifies the object; extra keyword
   arguments are kept in wc_extra (setattr).  Memoization of `dict` and `df`
   is invisible because `values` is never mutated in this package. *)
Record WC := mkWC {
  wc_eft : string; wc_basis : string; wc_scale : K;
  wc_values : dict string value; wc_extra : dict string jval; wc_hash : nat }.

(* WC.dict, wcxf/classes.py:382-388 *)
Definition wc_dict (w : WC) : dict string K := dmap (fun _ => to_number) (wc_values w).
(* WC.__getitem__, wcxf/classes.py:362-366 *)
Definition wc_getitem (w : WC) (k : string) : K :=
  match dget (wc_dict w) k with Some x => x | None => 0 end.

(* EFT objects, wcxf/classes.py:195-203 *)
Definition sectable := dict string (dict string jval).   (* sector -> coefficient -> info *)
Record EFT := mkEFT { eft_name : string; eft_sectors : dict string jval; eft_extra : dict string jval }.
(* Basis objects, wcxf/classes.py:216-233; `parent` is the keyword argument of
   that name; b_sectors is None while the attribute `sectors` has not been set *)
Record Basis := mkBasis { b_eft : string; b_basis : string; b_sectors : option sectable;
                          b_parent : option string; b_extra : dict string jval }.

Definition eft_reg := registry string EFT.
Definition basis_reg := registry (string * string) Basis.

(* [wc for sector, wcs in self.sectors.items() for wc in wcs] *)
Definition sec_wcs (s : sectable) : list string := flat_map (fun s => dkeys (snd s)) s.
(* Basis.all_wcs, wcxf/classes.py:245-250; on a half-built instance the attribute
   `_all_wcs` is missing *)
Definition all_wcs (b : Basis) : res (list string) :=
  match b_sectors b with Some s => Ok (sec_wcs s) | None => Err AttributeError end.

(* Basis.__init__, wcxf/classes.py:218-233: the instance is entered in the
   registry first (line 222), before the parent is looked up (225-230), so the
   lookup sees the half-built instance itself, and on failure the half-built
   instance (without `sectors`) stays registered. *)
Definition basis_init (r : basis_reg) (eft basis : string) (sectors : sectable)
           (parent : option string) (extra : dict string jval) : basis_reg * res Basis :=
  let half := mkBasis eft basis None parent extra in
  let r1 := reg_create r (eft, basis) half in
  let done s := let b := mkBasis eft basis (Some s) parent extra in
                (reg_create r1 (eft, basis) b, Ok b) in
  match parent with
  | Some p =>
      match reg_get r1 (eft, p) with
      | Ok pb => match b_sectors pb with
                 | Some ps => done (dupdate ps sectors)
                 | None => (r1, Err ValueError)      (* AttributeError -> ValueError *)
                 end
      | Err _ => (r1, Err ValueError)                (* KeyError -> ValueError *)
      end
  | None => done sectors
  end.

(* Basis.validate without the LaTeX check, wcxf/classes.py:252-266 *)
Definition basis_validate (er : eft_reg) (b : Basis) : res unit :=
  match reg_get er (b_eft b) with
  | Err _ => Err ValueError
  | Ok e =>
      match b_sectors b with
      | None => Err AttributeError
      | Some s =>
          if forallb (fun s => dmem (eft_sectors e) s) (dkeys s) then
            if knodup (sec_wcs s) then Ok tt else Err ValueError
          else Err ValueError
      end
  end.

(* WC.validate, wcxf/classes.py:368-380 *)
Definition wc_validate (er : eft_reg) (br : basis_reg) (w : WC) : res unit :=
  match reg_get er (wc_eft w) with
  | Err _ => Err ValueError
  | Ok _ =>
      match reg_get br (wc_eft w, wc_basis w) with
      | Err _ => Err ValueError
      | Ok b => bind (all_wcs b) (fun wcs =>
                if forallb (fun k => kmem k wcs) (dkeys (wc_values w)) then Ok tt
                else Err AssertionError)
      end
  end.

(* EFT.known_bases, EFT.known_translators, Basis.known_translators,
   wcxf/classes.py:205-213, 235-243 *)
Definition known_bases {I} (e : EFT) (br : registry (string * string) I) : res (list string) :=
  rmap (fun l => map snd (filter (fun n => keqb (fst n) (eft_name e)) l)) (reg_names br).
Definition tname : Type := (string * string) * string.   (* (eft, from_basis), to_basis *)
Definition eft_known_translators {I} (e : EFT) (tr : registry tname I) : res (list tname) :=
  rmap (filter (fun t => keqb (fst (fst t)) (eft_name e))) (reg_names tr).
Definition basis_known_translators {I} (b : Basis) (tr : registry tname I)
  : res (list tname * list tname) :=
  rmap (fun l => (filter (fun t => keqb (fst (fst t)) (b_eft b) && keqb (snd (fst t)) (b_basis b)) l,
                  filter (fun t => keqb (fst (fst t)) (b_eft b) && keqb (snd t) (b_basis b)) l))
       (reg_names tr).

(* ------------------------------------------------------------------ *)
(* Translators and matchers, wcxf/classes.py:448-529.
   The registered functions are arbitrary: they may raise; they are modelled
   as pure (a function mutating the dictionary it is given is not modelled).
   P is the type of the `parameters` argument. *)
Context {P : Type}.
Definition tfun := dict string K -> K -> option P -> option (list string) -> res (dict string K).
Definition mfun := dict string K -> K -> option P -> res (dict string K).
Definition mname : Type := ((string * string) * string) * string.
Definition tr_reg := registry tname tfun.
Definition ma_reg := registry mname mfun.

Definition nonzero (_ : string) (v : K) : bool := negb (kdec v 0).

(* Translator.translate, wcxf/classes.py:489-507; h is the random hash of the
   new object *)
Definition translator_translate (f : tfun) (eft to_basis : string) (w : WC)
           (params : option P) (sectors : option (list string)) (h : nat) : res WC :=
  bind (f (wc_dict w) (wc_scale w) params sectors) (fun out =>
  Ok (mkWC eft to_basis (wc_scale w) (dict2values (dfilter nonzero out)) [] h)).
(* WC.translate, wcxf/classes.py:448-465 *)
Definition wc_translate (tr : tr_reg) (w : WC) (to_basis : string)
           (params : option P) (sectors : option (list string)) (h : nat) : res WC :=
  if keqb to_basis (wc_basis w) then Ok w
  else match reg_get tr ((wc_eft w, wc_basis w), to_basis) with
       | Ok f => translator_translate f (wc_eft w) to_basis w params sectors h
       | Err _ => Err ValueError
       end.
(* Matcher.match, wcxf/classes.py:521-529 *)
Definition matcher_match (f : mfun) (to_eft to_basis : string) (w : WC) (params : option P) (h : nat) : res WC :=
  bind (f (wc_dict w) (wc_scale w) params) (fun out =>
  Ok (mkWC to_eft to_basis (wc_scale w) (dict2values (dfilter nonzero out)) [] h)).
(* WC.match, wcxf/classes.py:467-476 *)
Definition wc_match (ma : ma_reg) (w : WC) (to_eft to_basis : string) (params : option P) (h : nat) : res WC :=
  if keqb to_eft (wc_eft w) && keqb to_basis (wc_basis w) then Ok w
  else match reg_get ma (((wc_eft w, wc_basis w), to_eft), to_basis) with
       | Ok f => matcher_match f to_eft to_basis w params h
       | Err _ => Err ValueError
       end.
End Files.
Arguments jval K : clear implicits.
Arguments value K : clear implicits.
Arguments WC K : clear implicits.
Arguments EFT K : clear implicits.
Arguments Basis K : clear implicits.
Arguments sectable K : clear implicits.
Arguments tfun K P : clear implicits.
Arguments mfun K P : clear implicits.
Arguments tr_reg K P : clear implicits.
Arguments ma_reg K P : clear implicits.
Arguments eft_reg K : clear implicits.
Arguments basis_reg K : clear implicits.

(* ------------------------------------------------------------------ *)
(* dump / load, wcxf/classes.py:158-193: an object as its attribute dictionary
   `__dict__`.  Values are abstract (V). *)
Section DumpLoad.
Context {V : Type}.
Definition attrs := dict string V.
Definition private (k : string) : bool :=
  match k with String c _ => Ascii.eqb c "_"%char | EmptyString => false end.
(* dump: d = {k: v for k, v in self.__dict__.items() if k[0] != '_'} (line 179);
   an empty attribute name would make k[0] raise IndexError *)
Definition dump (o : attrs) : res attrs :=
  if kmem "" (dkeys o) then Err IndexError
  else Ok (dfilter (fun k _ => negb (private k)) o).
(* setattr loop over the remaining keyword arguments *)
Definition set_extra (o : attrs) (kw : attrs) : attrs := dupdate o kw.
Definition without (ks : list string) (d : attrs) : attrs := dfilter (fun k _ => negb (kmem k ks)) d.
(* required positional parameters: cls( **wcxf ) raises TypeError if one is missing *)
Definition arg (d : attrs) (k : string) : res V :=
  match dget d k with Some v => Ok v | None => Err TypeError end.
(* WC( **d ), wcxf/classes.py:324-335.  tofloat models float(scale); none/rnd are the
   initial values of the private attributes *)
Definition load_wc (tofloat : V -> res V) (none rnd : V) (d : attrs) : res attrs :=
  bind (arg d "eft") (fun e => bind (arg d "basis") (fun b =>
  bind (arg d "scale") (fun s => bind (arg d "values") (fun v =>
  bind (tofloat s) (fun s' =>
  Ok (set_extra [("eft", e); ("basis", b); ("scale", s'); ("values", v);
                 ("_dict", none); ("_df", none); ("_hash", rnd)]
                (without ["eft"; "basis"; "scale"; "values"] d))))))).
(* EFT( **d ), wcxf/classes.py:197-203; `_name` is set by NamedInstanceClass *)
Definition load_eft (d : attrs) : res attrs :=
  bind (arg d "eft") (fun e => bind (arg d "sectors") (fun s =>
  Ok (set_extra [("eft", e); ("sectors", s); ("_name", e)]
                (without ["eft"; "sectors"] d)))).
(* Basis( **d ), wcxf/classes.py:218-233.  parent_sectors looks up the parent in
   the registry and merge is `copy` + `update`. *)
Definition load_basis (mkname : V -> V -> V) (none : V)
           (parent_sectors : V -> V -> option V) (merge : V -> V -> V) (d : attrs) : res attrs :=
  bind (arg d "eft") (fun e => bind (arg d "basis") (fun b => bind (arg d "sectors") (fun s =>
  let o := set_extra [("eft", e); ("basis", b); ("_name", mkname e b)]
                     (without ["eft"; "basis"; "sectors"] d) in
  match dget o "parent" with
  | None => Ok (dset (dset o "sectors" s) "_all_wcs" none)
  | Some p => match parent_sectors e p with
              | Some ps => Ok (dset (dset o "sectors" (merge ps s)) "_all_wcs" none)
              | None => Err ValueError
              end
  end))).
End DumpLoad.
Arguments attrs V : clear implicits.
