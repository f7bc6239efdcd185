(* Specification of the command line tools (C67): what it means that a run
   wrote a text, independent of how the tools do it. *)
From Coq Require Import List Bool String Ascii.
From Verif Require Import PyBase Num WcxfModel CliModel.
Import ListNotations.
Local Open Scope string_scope.

(* the contents of a file after a run *)
Definition content (w : world) (p : string) : option string := dget (w_files w) p.

(* Going from w to w', exactly the text s was delivered to the output o: a file
   contains s and nothing else, standard output got s appended; everything else
   is as before. *)
Definition delivered (w w' : world) (o : outfile) (s : string) : Prop :=
  w_stdin w' = w_stdin w /\
  match o with
  | Stdout => w_stdout w' = w_stdout w ++ s /\ w_files w' = w_files w
  | NoStream => w' = w
  | OutFile p => content w' p = Some s /\ w_stdout w' = w_stdout w /\
                 forall q, q <> p -> content w' q = content w q
  end.
(* no file changed except the one behind o *)
Definition only_output (w w' : world) (o : outfile) : Prop :=
  w_stdin w' = w_stdin w /\
  forall q, o <> OutFile q -> content w' q = content w q.

(* the input file is not the output file *)
Definition distinct (i : infile) (o : outfile) : Prop :=
  forall p, i = InFile p -> o <> OutFile p.

(* a text is the JSON or YAML text of a document, as FORMAT says; formats are
   recognised in any case *)
Definition in_format {K : StarField} (T : textlib K) (fmt : string) (d : jval K) (s : string) : Prop :=
  (lower fmt = "json" /\ s = json_text T d) \/ (lower fmt = "yaml" /\ s = yaml_text T d).

(* fmt is the word (given in small and in capital letters), each letter being
   small or capital *)
Fixpoint spelled (small capital fmt : string) : Prop :=
  match small, capital, fmt with
  | EmptyString, EmptyString, EmptyString => True
  | String a s, String b c, String x f => (x = a \/ x = b) /\ spelled s c f
  | _, _, _ => False
  end.

(* the file of Wilson coefficients w: a mapping with eft, basis, scale and
   values in which the values are numbers or Re/Im pairs *)
Definition value_doc {K : StarField} (v : value K) (d : jval K) : Prop :=
  match v with
  | VNum x => d = JNum x
  | VReIm (Some re) (Some im) => d = JObj [("Re", JNum re); ("Im", JNum im)]
  | _ => False
  end.
Definition wc_doc {K : StarField} (x : WC K) (d : jval K) : Prop :=
  exists vals, d = JObj [("eft", JStr (wc_eft x)); ("basis", JStr (wc_basis x));
                         ("scale", JNum (wc_scale x)); ("values", JObj vals)] /\
    Forall2 (fun kv kd => fst kd = fst kv /\ value_doc (snd kv) (snd kd)) (wc_values x) vals.

(* a set of coefficients is valid if its EFT and its basis are known, its values
   are a mapping and each name in it is a coefficient of the basis *)
Definition valid_coeffs {K : StarField} {P} (E : env K P) (r : rawwc K) : Prop :=
  exists vals, r_values r = JObj vals /\
    (exists e, reg_get (e_efts E) (r_eft r) = Ok e) /\
    (exists b s, reg_get (e_bases E) (r_eft r, r_basis r) = Ok b /\ b_sectors b = Some s /\
       forall k, In k (dkeys vals) -> exists sec t, In (sec, t) s /\ In k (dkeys t)).

(* a file that `wcxf validate TYPE` should call valid *)
Definition valid_file {K : StarField} {P} (E : env K P) (ty : string) (s : string) : Prop :=
  (ty = "eft" /\ exists d e, load_doc E s = Ok d /\ eft_of_doc (K:=K) d = Ok e) \/
  (ty = "basis" /\ exists d b, load_doc E s = Ok d /\ basis_of_doc E d = Ok b /\
                   basis_validate (e_efts E) b = Ok tt /\ e_tex E b = true) \/
  (ty = "wc" /\ exists r, load_raw E s = Ok r /\ valid_coeffs E r).
