(* Model of wilson/translate/__init__.py and wilson/match/__init__.py: the translators and
   matchers the package registers with wcxf.  The functions of translate/smeft.py,
   translate/smeft_higgs.py, translate/wet.py and match/smeft.py are arguments here. *)
From Coq Require Import List Bool String Ascii ZArith Lia.
From Verif Require Import PyBase Num WcxfModel.
Import ListNotations.
Local Open Scope string_scope.
Local Open Scope list_scope.

Section Reg.
Context {K : StarField} {P : Type}.
Notation cd := (dict string K).
Notation secs := (option (list string)).
(* the functions called by the two modules; those of smeft.py and smeft_higgs.py do not take
   the scale *)
Record functions := {
  f_higgs_to_up : cd -> option P -> secs -> res cd;      (* smeft_higgs.higgslike_to_warsaw_up *)
  f_up_to_higgs : cd -> option P -> secs -> res cd;      (* smeft_higgs.warsaw_up_to_higgslike *)
  f_up_to_warsaw : cd -> option P -> secs -> res cd;     (* smeft.warsaw_up_to_warsaw *)
  f_warsaw_to_up : cd -> option P -> secs -> res cd;     (* smeft.warsaw_to_warsaw_up *)
  f_warsaw_to_mass : cd -> option P -> secs -> res cd;   (* smeft.warsaw_to_warsawmass *)
  f_flavio_to_JMS : tfun K P; f_JMS_to_flavio : tfun K P; f_Bern_to_flavio : tfun K P;
  f_flavio_to_Bern : tfun K P; f_JMS_to_EOS : tfun K P; f_JMS_to_Bern : tfun K P;
  f_Bern_to_JMS : tfun K P; f_JMS_to_FormFlavor : tfun K P; f_FlavorKit_to_JMS : tfun K P;
  f_JMS_to_FlavorKit : tfun K P;                         (* wet.* *)
  f_match_all : mfun K P }.                              (* match.smeft.match_all *)
Variable F : functions.

(* translate/__init__.py:10-160, in the order of registration *)
Definition noscale (f : cd -> option P -> secs -> res cd) : tfun K P := fun C _ p s => f C p s.
Definition translators : list (tname * tfun K P) :=
  [(("SMEFT", "Higgs-Warsaw up"), "Warsaw up", noscale (f_higgs_to_up F));
   (("SMEFT", "Higgs-Warsaw up"), "Warsaw", fun C _ p s => bind (f_higgs_to_up F C p s) (fun C' => f_up_to_warsaw F C' p s));
   (("SMEFT", "Warsaw up"), "Higgs-Warsaw up", noscale (f_up_to_higgs F));
   (("SMEFT", "Warsaw"), "Higgs-Warsaw up", fun C _ p s => bind (f_warsaw_to_up F C p s) (fun C' => f_up_to_higgs F C' p s));
   (("SMEFT", "Warsaw"), "Warsaw mass", noscale (f_warsaw_to_mass F));
   (("SMEFT", "Warsaw"), "Warsaw up", noscale (f_warsaw_to_up F));
   (("SMEFT", "Warsaw up"), "Warsaw", noscale (f_up_to_warsaw F));
   (("WET", "flavio"), "JMS", f_flavio_to_JMS F);
   (("WET-4", "flavio"), "JMS", f_flavio_to_JMS F);
   (("WET-3", "flavio"), "JMS", f_flavio_to_JMS F);
   (("WET", "JMS"), "flavio", f_JMS_to_flavio F);
   (("WET-4", "JMS"), "flavio", f_JMS_to_flavio F);
   (("WET-3", "JMS"), "flavio", f_JMS_to_flavio F);
   (("WET", "Bern"), "flavio", f_Bern_to_flavio F);
   (("WET", "flavio"), "Bern", f_flavio_to_Bern F);
   (("WET-4", "Bern"), "flavio", f_Bern_to_flavio F);
   (("WET-4", "flavio"), "Bern", f_flavio_to_Bern F);
   (("WET-3", "Bern"), "flavio", f_Bern_to_flavio F);
   (("WET-3", "flavio"), "Bern", f_flavio_to_Bern F);
   (("WET", "JMS"), "EOS", f_JMS_to_EOS F);
   (("WET", "JMS"), "Bern", f_JMS_to_Bern F);
   (("WET-4", "JMS"), "Bern", f_JMS_to_Bern F);
   (("WET-3", "JMS"), "Bern", f_JMS_to_Bern F);
   (("WET", "Bern"), "JMS", f_Bern_to_JMS F);
   (("WET-4", "Bern"), "JMS", f_Bern_to_JMS F);
   (("WET-3", "Bern"), "JMS", f_Bern_to_JMS F);
   (("WET", "JMS"), "formflavor", f_JMS_to_FormFlavor F);
   (("WET", "FlavorKit"), "JMS", f_FlavorKit_to_JMS F);
   (("WET", "JMS"), "FlavorKit", f_JMS_to_FlavorKit F);
   (("WET", "FlavorKit"), "flavio", fun C sc p s => bind (f_FlavorKit_to_JMS F C sc p s) (fun C' => f_JMS_to_flavio F C' sc p s))].

(* match/__init__.py:50-89: keep the keys of the basis (eft, basis) *)
Definition keep (br : basis_reg K) (eft basis : string) : mfun K P := fun C _ _ =>
  bind (reg_get br (eft, basis)) (fun b => bind (all_wcs b) (fun keys => Ok (dfilter (fun k _ => kmem k keys) C))).
(* match/__init__.py:10-89, in the order of registration; br is the registry of bases at the
   time of the call.  wilson.translate.JMS_to_flavio etc. are the functions registered above,
   called without sectors. *)
Definition matchers (br : basis_reg K) : list (mname * mfun K P) :=
  [((("SMEFT", "Warsaw up"), "WET"), "JMS", f_match_all F);
   ((("SMEFT", "Warsaw"), "WET"), "JMS", fun C sc p => bind (f_warsaw_to_up F C p None) (fun C' => f_match_all F C' sc p));
   ((("SMEFT", "Warsaw"), "WET"), "flavio", fun C sc p => bind (f_warsaw_to_up F C p None) (fun C' => bind (f_match_all F C' sc p) (fun C'' => f_JMS_to_flavio F C'' sc p None)));
   ((("SMEFT", "Warsaw up"), "WET"), "flavio", fun C sc p => bind (f_match_all F C sc p) (fun C' => f_JMS_to_flavio F C' sc p None));
   ((("SMEFT", "Warsaw"), "WET"), "EOS", fun C sc p => bind (f_warsaw_to_up F C p None) (fun C' => bind (f_match_all F C' sc p) (fun C'' => f_JMS_to_EOS F C'' sc p None)));
   ((("SMEFT", "Warsaw"), "WET"), "Bern", fun C sc p => bind (f_warsaw_to_up F C p None) (fun C' => bind (f_match_all F C' sc p) (fun C'' => f_JMS_to_Bern F C'' sc p None)));
   ((("WET", "flavio"), "WET-4"), "flavio", keep br "WET-4" "flavio");
   ((("WET-4", "flavio"), "WET-3"), "flavio", keep br "WET-3" "flavio");
   ((("WET", "Bern"), "WET-4"), "Bern", keep br "WET-4" "Bern");
   ((("WET-4", "Bern"), "WET-3"), "Bern", keep br "WET-3" "Bern");
   ((("WET", "JMS"), "WET-4"), "JMS", keep br "WET-4" "JMS");
   ((("WET-4", "JMS"), "WET-3"), "JMS", keep br "WET-3" "JMS");
   ((("WET-3", "JMS"), "WET-2"), "JMS", keep br "WET-2" "JMS")].
(* the registries after the import of the package: one instance is created per decorated function *)
Definition tr_all : tr_reg K P := reg_run None (map (fun e => RCreate (fst e) (snd e)) translators).
Definition ma_all (br : basis_reg K) : ma_reg K P := reg_run None (map (fun e => RCreate (fst e) (snd e)) (matchers br)).
End Reg.
Arguments functions K P : clear implicits.
