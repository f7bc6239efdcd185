(* Specification of the parameter cards for SMEFTsim *)
From Coq Require Import List Bool ZArith Reals String.
From Verif Require Import PyBase Num RealC SymModel SymClass SymSpec EftModel EftSpec BasisProps SimData SimModel.
Import ListNotations.
Local Open Scope string_scope.
Local Open Scope list_scope.

(* The operators without parameters in SMEFTsim: those violating lepton or baryon number *)
Definition unsupported : list string := ["llphiphi"; "duql"; "qque"; "qqql"; "duue"].
Definition sim_ops : list opspec := filter (fun o => negb (kmem (fst o) unsupported)) warsaw_ops.
(* the coefficients with parameters in SMEFTsim *)
Definition supported : list string := flat_map (fun o => map fst (op_coeffs o)) sim_ops.
(* the coefficients of which only the absolute value is in the card *)
Definition sign_lost (model_set : string) : list string :=
  ["phil1_11"; "phil1_22"; "phil1_33"; "phil3_11"; "phil3_22"; "phil3_33"; "phie_11"; "phie_22"; "phie_33";
   "phiq1_11"; "phiq1_22"; "phiq1_33"; "phiq3_11"; "phiq3_22"; "phiq3_33"; "phiu_11"; "phiu_22"; "phiu_33";
   "phid_11"; "phid_22"; "phid_33"] ++ (if String.eqb model_set "A" then ["ee_3333"] else []).

(* the parameters of SMEFTsim for the operators of the Warsaw basis *)
Definition sim_names : dict string (list string) :=
  [("G", ["G"]); ("Gtilde", ["Gtil"]); ("W", ["W"]); ("Wtilde", ["Wtil"]); ("phi", ["H"]); ("phiBox", ["Hbox"; "HBox"]); ("phiD", ["HDD"]);
   ("phiG", ["HG"]); ("phiGtilde", ["HGtil"]); ("phiW", ["HW"]); ("phiWtilde", ["HWtil"]); ("phiB", ["HB"]); ("phiBtilde", ["HBtil"]);
   ("phiWB", ["HWB"]); ("phiWtildeB", ["HWBtil"]);
   ("uphi", ["uH"]); ("dphi", ["dH"]); ("ephi", ["eH"]);
   ("uW", ["uW"]); ("uB", ["uB"]); ("uG", ["uG"]); ("dW", ["dW"]); ("dB", ["dB"]); ("dG", ["dG"]); ("eW", ["eW"]); ("eB", ["eB"]);
   ("phiud", ["Hud"]); ("phil1", ["Hl1"]); ("phil3", ["Hl3"; "HL3"]); ("phie", ["He"]); ("phiq1", ["Hq1"]); ("phiq3", ["Hq3"; "HQ3"]);
   ("phiu", ["Hu"]); ("phid", ["Hd"]);
   ("quqd1", ["quqd1"]); ("quqd8", ["quqd8"; "QUQD8"]); ("ledq", ["ledq"]); ("lequ1", ["lequ1"]); ("lequ3", ["lequ3"; "LeQu3"]);
   ("ll", ["ll"]); ("qq1", ["qq1"]); ("qq3", ["qq3"; "QQ3"]); ("uu", ["uu"]); ("dd", ["dd"]); ("ee", ["ee"]);
   ("lq1", ["lq1"]); ("lq3", ["lq3"; "LQ3"]); ("eu", ["eu"]); ("ed", ["ed"]); ("ud1", ["ud1"]); ("ud8", ["ud8"; "UD8"]);
   ("le", ["le"]); ("lu", ["lu"]); ("ld", ["ld"]); ("qe", ["qe"]); ("qu1", ["qu1"]); ("qu8", ["qu8"; "QU8"]); ("qd1", ["qd1"]); ("qd8", ["qd8"; "QD8"])].
(* "# cHl1Ph12", "# cledqAbs1x1x1x1", "# cG": the comment naming the parameter for the
   operator n, with part "Abs", "Ph" or "" and indices J *)
Definition digits (sep : string) (J : idx) : string := String.concat sep (map (fun j => str_nat (j + 1)) J).
Definition comment (N part sep : string) (J : idx) : string := ("# c" ++ N ++ part ++ digits sep J)%string.
Definition names_parameter (n part : string) (J : idx) (com : string) : Prop :=
  exists Ns N sep, dget sim_names n = Some Ns /\ In N Ns /\ In sep [""; "x"] /\ com = comment N part sep J.
Definition abs_part (c : cls) : string := match c with Cl0 => "" | _ => "Abs" end.
(* the number of entries of the symmetric array equal to the entry I *)
Definition multiplicity (c : cls) (I : idx) : nat := List.length (nodup (list_eq_dec Nat.eq_dec) (plain_orbit c I)).
(* a line with the comment com and the value v *)
Definition on_card (c : card) (com : string) (v : CR) : Prop := exists b lines ix, dget c b = Some lines /\ In (ix, v, com) lines.
(* the entry J of a coefficient array, the coefficient of an operator without indices *)
Definition entry (v : cval CR) (J : idx) : CR := match v with CNum z => z | CArr _ a => a J end.
Definition is_set (ms : string) : Prop := ms = "A" \/ ms = "B".
