(* Model of /repo/wilson/wcxf/cli.py (the command line tools wcxf, wcxf2eos,
   wcxf2smeftsim, wcxf2dsixtools, dsixtools2wcxf) and of
   /repo/wilson/wcxf/converters/yamljson.py. *)
From Coq Require Import List Bool String Ascii ZArith.
From Verif Require Import PyBase Num WcxfModel.
Import ListNotations.
Local Open Scope string_scope.

(* ------------------------------------------------------------------ *)
(* What a process can see and change: the files (path -> text), the text on
   standard input and the text printed to standard output so far.
   Simplifications: every path can be opened for writing, standard error (the
   messages of logging) is not modelled, a text is written at once, i.e. json.dump,
   yaml.dump and pylha.dump do not fail half way. *)
Record world := mkW { w_files : dict string string; w_stdin : string; w_stdout : string }.
(* argparse.FileType('r') with default sys.stdin, "-" being standard input *)
Inductive infile := Stdin | InFile (p : string).
(* argparse.FileType('w') with default sys.stdout; `--output` without a value
   (nargs='?' without const) gives None *)
Inductive outfile := Stdout | NoStream | OutFile (p : string).

Definition can_open (w : world) (i : infile) : bool :=
  match i with Stdin => true | InFile p => dmem (w_files w) p end.
(* the text is read when the command runs, that is after argparse has opened
   the output file *)
Definition read (w : world) (i : infile) : string :=
  match i with Stdin => w_stdin w | InFile p => dgetd (w_files w) p "" end.
(* open(path, 'w') truncates the file *)
Definition open_out (w : world) (o : outfile) : world :=
  match o with
  | OutFile p => mkW (dset (w_files w) p "") (w_stdin w) (w_stdout w)
  | _ => w
  end.
Definition write (w : world) (o : outfile) (s : string) : world :=
  match o with
  | Stdout => mkW (w_files w) (w_stdin w) (w_stdout w ++ s)
  | NoStream => w
  | OutFile p => mkW (dset (w_files w) p (dgetd (w_files w) p "" ++ s)) (w_stdin w) (w_stdout w)
  end.

(* how a process ends: with an exit status (sys.exit of the value returned by
   the entry point, None counting as 0), or with an uncaught exception, which
   makes the interpreter exit with status 1 *)
Inductive outcome := Exited (code : nat) | Raised (e : exn).
Definition status (r : outcome) : nat := match r with Exited c => c | Raised _ => 1 end.

(* str.lower on the ASCII letters; no other letter has one of j, s, o, n, y, a,
   m, l as its lower case *)
Definition lower_char (c : ascii) : ascii :=
  let n := nat_of_ascii c in
  if (Nat.leb 65 n && Nat.leb n 90)%bool then ascii_of_nat (n + 32) else c.
Fixpoint lower (s : string) : string :=
  match s with EmptyString => EmptyString | String c t => String (lower_char c) (lower t) end.

(* os.path.join(a, b) for a relative b *)
Fixpoint ends_slash (s : string) : bool :=
  match s with
  | EmptyString => true
  | String c EmptyString => Ascii.eqb c "/"%char
  | String _ t => ends_slash t
  end.
Definition pjoin (a b : string) : string := if ends_slash a then a ++ b else a ++ "/" ++ b.

Section Cli.
Context {K : StarField}.

(* The text layer: the json and yaml libraries and float(str).  json_loads and
   yaml_load are None where the library raises JSONDecodeError (a ValueError)
   or YAMLError. *)
Record textlib := mkTL {
  json_loads : string -> option (jval K); yaml_load : string -> option (jval K);
  json_text : jval K -> string; yaml_text : jval K -> string;
  float_str : string -> option K }.

(* Everything the commands get from the rest of the package: the registries of
   EFTs, bases, translators and matchers, the verdict of the LaTeX check of
   Basis.validate (wcxf/classes.py:268-279), the help text of argparse and
   os.path.isdir. *)
Context {P : Type}.
Record env := mkEnv {
  e_text : textlib; e_efts : eft_reg K; e_bases : basis_reg K;
  e_tr : tr_reg K P; e_ma : ma_reg K P;
  e_tex : Basis K -> bool; e_help : string; e_isdir : string -> bool }.
Variable E : env.
Notation T := (e_text E).

(* _load_yaml_json, wcxf/classes.py:30-39; Invalid stands for yaml.YAMLError *)
Definition load_doc (s : string) : res (jval K) :=
  match json_loads T s with
  | Some d => Ok d
  | None => match yaml_load T s with Some d => Ok d | None => Err Invalid end
  end.

(* A WC object straight after loading: the values are not looked at by
   WC.__init__ (wcxf/classes.py:324-335), only when they are used *)
Record rawwc := mkRaw { r_eft : string; r_basis : string; r_scale : K;
                        r_values : jval K; r_extra : dict string (jval K) }.
(* float(x) *)
Definition to_float (v : jval K) : res K :=
  match v with
  | JNum x => Ok x
  | JBool b => Ok (if b then k1 else k0)
  | JStr s => match float_str T s with Some x => Ok x | None => Err ValueError end
  | _ => Err TypeError
  end.
(* cls( **wcxf ), wcxf/classes.py:161-165 with WC.__init__.  Simplification: an
   eft or basis that is not a string, which would raise ValueError (unknown EFT)
   when it is used, raises ValueError here. *)
Definition to_name (v : jval K) : res string :=
  match v with JStr s => Ok s | _ => Err ValueError end.
Definition raw_of_doc (d : jval K) : res rawwc :=
  match d with
  | JObj o =>
      bind (arg o "eft") (fun e => bind (arg o "basis") (fun b =>
      bind (arg o "scale") (fun s => bind (arg o "values") (fun v =>
      bind (to_float s) (fun s' => bind (to_name e) (fun e' => bind (to_name b) (fun b' =>
      Ok (mkRaw e' b' s' v (without ["eft"; "basis"; "scale"; "values"] o)))))))))
  | _ => Err TypeError                 (* argument after ** must be a mapping *)
  end.
Definition load_raw (s : string) : res rawwc := bind (load_doc s) raw_of_doc.

(* WC._to_number, wcxf/classes.py:340-347, as far as the kinds of values go *)
Definition value_of (v : jval K) : res (value K) :=
  match v with
  | JObj o =>
      let part k := match dget o k with None => Ok None | Some x => rmap Some (to_float x) end in
      bind (part "Re") (fun re => bind (part "Im") (fun im => Ok (VReIm re im)))
  | _ => rmap (@VNum K) (to_float v)
  end.
Fixpoint values_of (o : list (string * jval K)) : res (dict string (value K)) :=
  match o with
  | [] => Ok []
  | (k, v) :: o' => bind (value_of v) (fun x => bind (values_of o') (fun l => Ok ((k, x) :: l)))
  end.
(* the object with its values as numbers (WC.dict, wcxf/classes.py:382-388) *)
Definition wc_of_raw (h : nat) (r : rawwc) : res (WC K) :=
  match r_values r with
  | JObj o => rmap (fun v => mkWC (r_eft r) (r_basis r) (r_scale r) v (r_extra r) h) (values_of o)
  | _ => Err AttributeError            (* self.values.items() *)
  end.
(* WC.validate, wcxf/classes.py:368-380: only the names of the values count *)
Definition raw_validate (r : rawwc) : res unit :=
  let with_values v := mkWC (r_eft r) (r_basis r) (r_scale r) v (r_extra r) O in
  match r_values r with
  | JObj o => wc_validate (e_efts E) (e_bases E) (with_values (dmap (fun _ _ => VNum k0) o))
  | _ => bind (wc_validate (e_efts E) (e_bases E) (with_values []))
              (fun _ => Err AttributeError)            (* self.values.keys() *)
  end.

(* WCxf.dump, wcxf/classes.py:167-193: the public attributes as a mapping *)
Definition doc_of_raw (r : rawwc) : jval K :=
  JObj ([("eft", JStr (r_eft r)); ("basis", JStr (r_basis r)); ("scale", JNum (r_scale r));
         ("values", r_values r)] ++ dfilter (fun k _ => negb (private k)) (r_extra r)).
Definition doc_of_value (v : value K) : jval K :=
  match v with
  | VNum x => JNum x
  | VReIm re im =>
      JObj ((match re with Some x => [("Re", JNum x)] | None => [] end) ++
            (match im with Some x => [("Im", JNum x)] | None => [] end))
  end.
Definition raw_of_wc (x : WC K) : rawwc :=
  mkRaw (wc_eft x) (wc_basis x) (wc_scale x)
        (JObj (dmap (fun _ => doc_of_value) (wc_values x))) (wc_extra x).
Definition dump_text (fmt : string) (r : rawwc) : res string :=
  if String.eqb (lower fmt) "json" then Ok (json_text T (doc_of_raw r))
  else if String.eqb (lower fmt) "yaml" then Ok (yaml_text T (doc_of_raw r))
  else Err ValueError.

(* wc_in.translate(args.BASIS), wcxf/classes.py:448-465: the object itself if
   there is nothing to do, else the translator is looked up before the values
   are used *)
Definition raw_translate (r : rawwc) (basis : string) (h : nat) : res rawwc :=
  if keqb basis (r_basis r) then Ok r
  else match reg_get (e_tr E) ((r_eft r, r_basis r), basis) with
       | Err _ => Err ValueError
       | Ok _ => bind (wc_of_raw h r) (fun x =>
                 rmap raw_of_wc (wc_translate (e_tr E) x basis None None h))
       end.
(* wc_in.match(args.EFT, args.BASIS), wcxf/classes.py:467-476 *)
Definition raw_match (r : rawwc) (eft basis : string) (h : nat) : res rawwc :=
  if keqb eft (r_eft r) && keqb basis (r_basis r) then Ok r
  else match reg_get (e_ma E) (((r_eft r, r_basis r), eft), basis) with
       | Err _ => Err ValueError
       | Ok _ => bind (wc_of_raw h r) (fun x =>
                 rmap raw_of_wc (wc_match (e_ma E) x eft basis None h))
       end.

(* EFT.load and Basis.load: cls( **wcxf ).  The sectors of a basis are a mapping
   of mappings (anything else is an error when it is used: AttributeError). *)
Definition eft_of_doc (d : jval K) : res (EFT K) :=
  match d with
  | JObj o => bind (arg o "eft") (fun e => bind (arg o "sectors") (fun s =>
              bind (to_name e) (fun e' =>
              Ok (mkEFT e' (match s with JObj l => l | _ => [] end)
                        (without ["eft"; "sectors"] o)))))
  | _ => Err TypeError
  end.
Fixpoint sectable_of (o : list (string * jval K)) : res (sectable K) :=
  match o with
  | [] => Ok []
  | (k, JObj l) :: o' => bind (sectable_of o') (fun t => Ok ((k, l) :: t))
  | _ => Err AttributeError
  end.
Definition basis_of_doc (d : jval K) : res (Basis K) :=
  match d with
  | JObj o =>
      bind (arg o "eft") (fun e => bind (arg o "basis") (fun b => bind (arg o "sectors") (fun s =>
      bind (to_name e) (fun e' => bind (to_name b) (fun b' =>
      bind (match s with JObj l => sectable_of l | _ => Err AttributeError end) (fun s' =>
      bind (match dget o "parent" with
            | None => Ok None | Some p => rmap Some (to_name p) end) (fun p' =>
      snd (basis_init (e_bases E) e' b' s' p' (without ["eft"; "basis"; "sectors"; "parent"] o)))))))))
  | _ => Err TypeError
  end.
(* Basis.validate with the LaTeX check, wcxf/classes.py:252-279 *)
Definition basis_check (b : Basis K) : res unit :=
  bind (basis_validate (e_efts E) b) (fun _ => if e_tex E b then Ok tt else Err ValueError).

(* ------------------------------------------------------------------ *)
(* The subcommands of wcxf, cli.py:10-75 *)
Inductive command :=
| NoCommand                                        (* no subcommand given *)
| Convert (fmt : string) (i : infile) (o : outfile)
| Translate (basis : string) (i : infile) (o : outfile) (fmt : string)
| Match (eft basis : string) (i : infile) (o : outfile) (fmt : string)
| Validate (ty : string) (i : infile).
Definition input_of (c : command) : infile :=
  match c with
  | NoCommand => Stdin | Convert _ i _ => i | Translate _ i _ _ => i | Match _ _ i _ _ => i
  | Validate _ i => i
  end.
Definition output_of (c : command) : outfile :=
  match c with
  | NoCommand => Stdout | Convert _ _ o => o | Translate _ _ o _ => o | Match _ _ _ o _ => o
  | Validate _ _ => Stdout
  end.

(* A command changes the world and returns a value (None or 0 / 1) or raises *)
Definition step : Type := world * res (option nat).
Definition emit (w : world) (o : outfile) (t : res string) (ret : option nat) : step :=
  match t with Ok s => (write w o s, Ok ret) | Err e => (w, Err e) end.

(* convert_json, converters/yamljson.py:7-12 with _yaml_to_json, wcxf/classes.py:48-50 *)
Definition convert_json (w : world) (i : infile) (o : outfile) : world :=
  match yaml_load T (read w i) with
  | Some d => write w o (json_text T d)
  | None => w                                        (* logged, returns 1 *)
  end.
(* convert_yaml, converters/yamljson.py:15-21 with _json_to_yaml, wcxf/classes.py:52-54 *)
Definition convert_yaml (w : world) (i : infile) (o : outfile) : world :=
  match json_loads T (read w i) with
  | Some d => write w o (yaml_text T d)
  | None => w                                        (* logged, returns 1 *)
  end.
(* convert, cli.py:84-89: the values returned by the converters are dropped *)
Definition convert (w : world) (fmt : string) (i : infile) (o : outfile) : step :=
  let w1 := if String.eqb (lower fmt) "json" then convert_json w i o else w in
  let w2 := if String.eqb (lower fmt) "yaml" then convert_yaml w1 i o else w1 in
  (w2, Ok None).
(* translate, cli.py:92-95 *)
Definition translate (w : world) (basis : string) (i : infile) (o : outfile) (fmt : string) (h : nat) : step :=
  emit w o (bind (load_raw (read w i)) (fun r =>
            bind (raw_translate r basis h) (dump_text fmt))) None.
(* match, cli.py:98-101 *)
Definition match_ (w : world) (eft basis : string) (i : infile) (o : outfile) (fmt : string) (h : nat) : step :=
  emit w o (bind (load_raw (read w i)) (fun r =>
            bind (raw_match r eft basis h) (dump_text fmt))) None.
(* validate, cli.py:104-117 *)
Definition success_text : string := "Validation successful." ++ String (ascii_of_nat 10) "".
Definition validate (w : world) (ty : string) (i : infile) : step :=
  if String.eqb ty "eft" then
    emit w Stdout (bind (load_doc (read w i)) (fun d =>
                   bind (eft_of_doc d) (fun _ => Ok success_text))) (Some 0)
  else if String.eqb ty "basis" then
    emit w Stdout (bind (load_doc (read w i)) (fun d =>
                   bind (basis_of_doc d) (fun b =>
                   bind (basis_check b) (fun _ => Ok success_text)))) (Some 0)
  else if String.eqb ty "wc" then
    emit w Stdout (bind (load_raw (read w i)) (fun r =>
                   bind (raw_validate r) (fun _ => Ok success_text))) (Some 0)
  else (w, Ok (Some 1)).

(* args.func(args); without a subcommand `args` has no attribute func *)
Definition call (w : world) (c : command) (h : nat) : step :=
  match c with
  | NoCommand => (w, Err AttributeError)
  | Convert fmt i o => convert w fmt i o
  | Translate b i o fmt => translate w b i o fmt h
  | Match e b i o fmt => match_ w e b i o fmt h
  | Validate ty i => validate w ty i
  end.
(* wcxf_cli, cli.py:77-81: parse_args opens FILE and the output file (a missing
   FILE ends the process with status 2; FILE is taken to precede --output);
   every AttributeError raised by the command prints the help; the value
   returned by the command is dropped, so that the exit status is 0. *)
Definition wcxf_cli (w : world) (c : command) (h : nat) : world * outcome :=
  if can_open w (input_of c) then
    let w1 := open_out w (output_of c) in
    match call w1 c h with
    | (w2, Ok _) => (w2, Exited 0)
    | (w2, Err AttributeError) => (write w2 Stdout (e_help E), Exited 0)
    | (w2, Err e) => (w2, Raised e)
    end
  else (w, Exited 2).

(* ------------------------------------------------------------------ *)
(* The converters are arbitrary functions here; their content is in EosModel,
   SimModel and DsixModel *)
Definition load_valid (s : string) : res rawwc :=
  bind (load_raw s) (fun r => rmap (fun _ => r) (raw_validate r)).
Definition finish (w : world) (o : outfile) (t : res string) : world * outcome :=
  match t with Ok s => (write w o s, Exited 0) | Err e => (w, Raised e) end.

(* eos, cli.py:120-154; conv stands for get_sm_wcs and wcxf2eos *)
Definition eos_dir (home : string) : string := pjoin home "parameters".
Definition eos_file (home : string) : string := pjoin (eos_dir home) "wcxf.yaml".
Definition eos_run (conv : rawwc -> res (jval K)) (w : world) (i : infile) (f : outfile)
  : world * outcome :=
  match bind (load_valid (read w i)) conv with
  | Err e => (w, Raised e)
  | Ok d => match f with
            | NoStream => (w, Raised AttributeError)    (* f.close(), line 153 *)
            | _ => (write w f (yaml_text T d), Exited 0)
            end
  end.
Definition eos (conv : rawwc -> res (jval K)) (w : world) (i : infile) (o : outfile)
           (home : option string) : world * outcome :=
  if can_open w i then
    let w1 := open_out w o in
    match home with
    | None => eos_run conv w1 i o
    | Some hm =>
        match o with
        | Stdout => if e_isdir E (eos_dir hm)
                    then let f := OutFile (eos_file hm) in eos_run conv (open_out w1 f) i f
                    else (w1, Exited 1)
        | _ => (w1, Exited 1)
        end
    end
  else (w, Exited 2).

(* smeftsim, cli.py:157-196; key is the line typed at the prompt, conv stands
   for the param_card with its header and footer; `--output` without a value
   makes open(None) raise TypeError *)
Definition warning_text : string := "WARNING: The input file must be in the 'Warsaw mass' basis!".
Definition smeftsim (conv : rawwc -> res string) (w : world) (i : infile) (out : option string)
           (key : string) : world * outcome :=
  if can_open w i then
    match load_valid (read w i) with
    | Err e => (w, Raised e)
    | Ok r =>
        let other := negb (String.eqb (r_basis r) "Warsaw mass") in
        let w1 := if other then write w Stdout warning_text else w in
        if other && negb (String.eqb key "i") && negb (String.eqb key "I")
        then (w1, Exited 0)                              (* quit() *)
        else match out with
             | None => (w1, Raised TypeError)
             | Some p => let f := OutFile p in finish (open_out w1 f) f (conv r)
             end
    end
  else (w, Exited 2).

(* wcxf2dsixtools, cli.py:199-211 *)
Definition wcxf2dsixtools (conv : rawwc -> res string) (w : world) (i : infile) (o : outfile)
  : world * outcome :=
  if can_open w i then
    let w1 := open_out w o in finish w1 o (bind (load_valid (read w1 i)) conv)
  else (w, Exited 2).
(* dsixtools2wcxf, cli.py:214-224: one or more input files *)
Definition dsixtools2wcxf (conv : list string -> res string) (w : world) (is : list infile) (o : outfile)
  : world * outcome :=
  if forallb (can_open w) is then
    let w1 := open_out w o in finish w1 o (conv (map (read w1) is))
  else (w, Exited 2).
End Cli.
Arguments textlib K : clear implicits.
Arguments env K P : clear implicits.
Arguments rawwc K : clear implicits.
