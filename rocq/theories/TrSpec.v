(* Specification of the bases WET/Bern and WET/flavio: the coefficients named by the
   translators, listed operator by operator and flavour by flavour, and the sectors they
   belong to.  Written from the conventions of the bases, without reference to the model. *)
From Coq Require Import List Bool ZArith QArith String.
From Verif Require Import PyBase Num AdmData TrData.
Import ListNotations.
Local Open Scope string_scope.
Local Open Scope list_scope.

Definition cross (ops flavours : list string) : list string := flat_map (fun f => map (fun o => o ++ f)%string ops) flavours.
Definition under (ops flavours : list string) : list string := flat_map (fun f => map (fun o => o ++ "_" ++ f)%string ops) flavours.
Definition all2 (f : string -> string -> string) (l m : list string) : list string := flat_map (fun x => map (f x) m) l.
Definition leptons : list string := ["e"; "mu"; "tau"].
Definition ll : list string := all2 append leptons leptons.
(* d_i -> d_j transitions *)
Definition dd_bern : list string := ["sb"; "db"; "ds"].
Definition dd_flavio : list string := ["bs"; "bd"; "sd"].
Definition ud_bern : list string := ["cb"; "ub"; "us"; "cs"; "cd"; "ud"].
Definition ud_flavio : list string := ["bc"; "bu"; "su"; "sc"; "dc"; "du"].

(* ---------- the Bern basis ---------- *)
Definition ten : list string := ["1"; "2"; "3"; "4"; "5"; "6"; "7"; "8"; "9"; "10"; "1p"; "2p"; "3p"; "4p"; "5p"; "6p"; "7p"; "8p"; "9p"; "10p"].
Definition five : list string := ["1"; "3"; "5"; "7"; "9"; "1p"; "3p"; "5p"; "7p"; "9p"].
Definition bern_keys : list string :=
  (* Delta F = 2 *)
  cross ["1"; "2"; "3"; "4"; "5"; "1p"; "2p"; "3p"] ["sbsb"; "dbdb"; "dsds"; "cucu"] ++
  (* u d l nu *)
  cross ["1"; "5"; "1p"; "5p"; "7p"] (all2 append ud_bern ll) ++
  (* four different currents, Delta F = 1 with a pair of another flavour *)
  cross ten (all2 append dd_bern ["uu"; "uc"; "cu"; "cc"] ++ ["sbdd"; "dbss"; "dsbb"]) ++
  (* pairs of a flavour of the transition, Delta F = 1.5 *)
  cross five ["sbss"; "sbbb"; "dbdd"; "dbbb"; "dsss"; "dsdd"; "dbds"; "sbsd"] ++
  (* d d l l and d d nu nu *)
  cross five (all2 append dd_bern ll) ++
  cross ["nu1"; "nu1p"] (all2 append dd_bern ll) ++
  (* dipoles *)
  cross ["7"; "7p"] (map (append "gamma") dd_bern) ++
  cross ["8"; "8p"] (map (append "g") dd_bern).

(* ---------- the flavio basis ---------- *)
Definition nonlep : list string := ["CVLL"; "CVLR"; "CSRR"; "CSRL"; "CTRR"; "CVRR"; "CVRL"; "CSLL"; "CSLR"; "CTLL"].
(* with the quarks crossed *)
Definition nonlep_t : list string := map (fun o => o ++ "t")%string nonlep.
Definition nus : list string := ["nue"; "numu"; "nutau"].
Definition nu_pairs : list string := ["nuenue"; "numunumu"; "nutaunutau"; "nuenumu"; "nuenutau"; "numunutau"].
Definition pairs_ll : list string := ["ee"; "mumu"; "tautau"].
Definition pairs_uu : list string := ["uu"; "cc"].
Definition pairs_dd : list string := ["dd"; "ss"; "bb"].
Definition upto (l : list string) : list string :=      (* x y with x not after y *)
  match l with [x; y; z] => [x ++ x; x ++ y; x ++ z; y ++ y; y ++ z; z ++ z]%string | [x; y] => [x ++ x; x ++ y; y ++ y]%string | _ => [] end.
Definition below (l : list string) : list string :=     (* x y with x after y *)
  match l with [x; y; z] => [y ++ x; z ++ x; z ++ y]%string | [x; y] => [y ++ x]%string | _ => [] end.
Definition flavio_main : list string :=
  (* Delta F = 2 *)
  under ["CVLL"; "CVLR"; "CVRR"; "CSLL"; "CSLR"; "CSRR"; "CTLL"; "CTRR"] ["bsbs"; "bdbd"; "sdsd"; "ucuc"] ++
  (* u d l nu *)
  under ["CVL"; "CVR"; "CSL"; "CSR"; "CT"] (all2 append ud_flavio (all2 append leptons nus)) ++
  (* d d nu nu, d d l l, u u l l *)
  under ["CL"; "CR"] (all2 append dd_flavio (all2 append nus nus)) ++
  under ["C9"; "C9p"; "C10"; "C10p"; "CS"; "CSp"; "CP"; "CPp"] (all2 append dd_flavio ll ++ ["cuee"; "cumumu"; "cutautau"]) ++
  (* Delta F = 1 four-quark operators *)
  under (nonlep ++ nonlep_t) ["sduu"; "sdcc"; "sdbb"; "bsuu"; "bscc"; "bsdd"; "bduu"; "bdcc"; "bdss"; "cudd"; "cuss"; "cubb"] ++
  under nonlep ["sddd"; "sdss"; "bsss"; "bsbb"; "bddd"; "bdbb"; "cuuu"; "cucc"] ++
  (* dipoles *)
  under ["C7"; "C7p"; "C8"; "C8p"] ["bs"; "bd"; "sd"; "cu"] ++
  under ["C7"] (pairs_ll ++ pairs_uu ++ pairs_dd) ++ under ["C8"] (pairs_uu ++ pairs_dd) ++
  ["CG"; "CGtilde"] ++
  (* Delta F = 0 *)
  under ["CVLL"; "CVRR"; "CSRR"] (upto pairs_ll) ++ under ["CVLR"] (upto pairs_ll ++ below pairs_ll) ++
  under ["CVLR"; "CSRR"] ["emumue"; "etautaue"; "mutautaumu"] ++
  under ["CVLL"; "CVLR"] (all2 append nu_pairs (pairs_ll ++ pairs_uu ++ pairs_dd)) ++
  under ["CVLL"; "CVRR"; "CVLR"; "CSRL"; "CSRR"; "CTRR"] (all2 append pairs_ll (pairs_uu ++ pairs_dd)) ++
  under ["CVLR"] (all2 append (pairs_uu ++ pairs_dd) pairs_ll) ++
  under ["CVLL"; "CVRR"; "CV1LR"; "CV8LR"; "CS1RR"; "CS8RR"]
    (upto pairs_uu ++ ["uccu"] ++ upto pairs_dd ++ ["dssd"; "dbbd"; "sbbs"]) ++
  under ["CV1LR"; "CV8LR"] (below pairs_uu ++ below pairs_dd ++ all2 append pairs_dd pairs_uu) ++
  under ["CV1LL"; "CV8LL"; "CV1RR"; "CV8RR"; "CV1LR"; "CV8LR"; "CS1RR"; "CS8RR"] (all2 append pairs_uu pairs_dd) ++
  under ["CV1LR"; "CV8LR"; "CS1RR"; "CS8RR"] ["uddu"; "ussu"; "ubbu"; "cddc"; "cssc"; "cbbc"].
(* lepton flavour violation without a change of quark flavour *)
Definition flavio_lfv : list string :=
  under ["CVLL"; "CVLR"]
    ["nuenuemue"; "numunumumue"; "nutaunutaumue"; "numunuemue"; "nutaunuemue"; "nutaunumuemu"; "numunueemu"; "nutaunueemu"; "nutaunumumue"; "nuenuetaumu"; "numunumutaumu"; "nutaunutautaumu"; "numunuemutau"; "nutaunuemutau"; "nutaunumutaumu"; "numunuetaumu"; "nutaunuetaumu"; "nutaunumumutau"; "nuenuetaue"; "numunumutaue"; "nutaunutautaue"; "numunueetau"; "nutaunueetau"; "nutaunumutaue"; "numunuetaue"; "nutaunuetaue"; "nutaunumuetau"] ++
  under ["Cgamma"]
    ["mue"; "emu"; "taumu"; "mutau"; "taue"; "etau"] ++
  under ["CVLL"; "CVRR"; "CVLR"; "CSRR"]
    ["eemue"; "muemumu"; "muetautau"; "eetaumu"; "mumutaumu"; "taumutautau"; "eetaue"; "muetaumu"; "tauetautau"; "muemutau"; "muetaue"] ++
  under ["CVLL"; "CVRR"; "CVLR"; "CSRL"; "CSRR"; "CTRR"]
    ["mueuu"; "muecc"; "muedd"; "muess"; "muebb"; "taumuuu"; "taumucc"; "taumudd"; "taumuss"; "taumubb"; "taueuu"; "tauecc"; "tauedd"; "tauess"; "tauebb"] ++
  under ["CVLR"]
    ["mueee"; "mumumue"; "tautaumue"; "uumue"; "ccmue"; "ddmue"; "ssmue"; "bbmue"; "taumuee"; "taumumumu"; "tautautaumu"; "uutaumu"; "cctaumu"; "ddtaumu"; "sstaumu"; "bbtaumu"; "taueee"; "mumutaue"; "taumumue"; "tautautaue"; "uutaue"; "cctaue"; "ddtaue"; "sstaue"; "bbtaue"; "taumuemu"; "tauemue"] ++
  under ["CVLR"; "CSRR"]
    ["tauemutau"; "taumuetau"; "mueetau"; "taueemu"; "tauemumu"] ++
  under ["CSRL"; "CSRR"; "CTRR"]
    ["emuuu"; "emucc"; "emudd"; "emuss"; "emubb"; "mutauuu"; "mutaucc"; "mutaudd"; "mutauss"; "mutaubb"; "etauuu"; "etaucc"; "etaudd"; "etauss"; "etaubb"] ++
  under ["CSRR"]
    ["eeemu"; "emumumu"; "emutautau"; "eemutau"; "mumumutau"; "mutautautau"; "eeetau"; "emumutau"; "mumuetau"; "etautautau"; "emutaumu"; "emuetau"] ++
  [].
Definition flavio_keys : list string := flavio_main ++ flavio_lfv.

(* ---------- sectors ---------- *)
(* the coefficients of some sectors (the table of definitions.py) *)
Definition of_sectors (names : list string) : list string := flat_map (fun s => dgetd coeffs s []) names.
Definition bern_sectors : list string :=
  ["sbsb"; "dbdb"; "sdsd"; "cucu"; "sbuc"; "sbcu"; "dbuc"; "dbcu"; "sduc"; "sdcu"; "sbsd"; "dbds"; "sb"; "db"; "sd";
   "sbnunu"; "dbnunu"; "sdnunu"] ++
  all2 append ["sb"; "db"; "sd"] ["emu"; "mue"; "etau"; "taue"; "mutau"; "taumu"] ++
  all2 append ud_bern ["enu"; "munu"; "taunu"].
Definition flavio_sectors : list string :=
  ["sbsb"; "dbdb"; "sdsd"; "cucu"; "sb"; "db"; "sd"; "cu"; "sbnunu"; "dbnunu"; "sdnunu"; "dF=0"; "ffnunu";
   "mutau"; "mue"; "taue"; "muemutau"; "etauemu"; "nunumue"; "nunumutau"; "nunutaue"] ++
  all2 append ["sb"; "db"; "sd"] ["emu"; "mue"; "etau"; "taue"; "mutau"; "taumu"] ++
  all2 append ud_bern ["enu"; "munu"; "taunu"].

(* ---------- what the two bases have in common ---------- *)
(* the flavio coefficients that exist in the Bern basis: no c -> u transition, no Delta F = 0 *)
Definition flavio_bern : list string :=
  under ["CVLL"; "CVLR"; "CVRR"; "CSLL"; "CSLR"; "CSRR"; "CTLL"; "CTRR"] ["bsbs"; "bdbd"; "sdsd"; "ucuc"] ++
  under ["CVL"; "CVR"; "CSL"; "CSR"; "CT"] (all2 append ud_flavio (all2 append leptons nus)) ++
  under ["CL"; "CR"] (all2 append dd_flavio (all2 append nus nus)) ++
  under ["C9"; "C9p"; "C10"; "C10p"; "CS"; "CSp"; "CP"; "CPp"] (all2 append dd_flavio ll) ++
  under (nonlep ++ nonlep_t) ["sduu"; "sdcc"; "sdbb"; "bsuu"; "bscc"; "bsdd"; "bduu"; "bdcc"; "bdss"] ++
  under nonlep ["sddd"; "sdss"; "bsss"; "bsbb"; "bddd"; "bdbb"] ++
  under ["C7"; "C7p"; "C8"; "C8p"] ["bs"; "bd"; "sd"].
(* the Bern coefficients flavio_to_Bern returns *)
Definition bern_flavio : list string :=
  cross ["1"; "2"; "3"; "4"; "5"; "1p"; "2p"; "3p"] ["sbsb"; "dbdb"; "dsds"; "cucu"] ++
  cross ["1"; "5"; "1p"; "5p"; "7p"] (all2 append ud_bern ll) ++
  cross ten (all2 append dd_bern ["uu"; "cc"] ++ ["sbdd"; "dbss"; "dsbb"]) ++
  cross five ["sbss"; "sbbb"; "dbdd"; "dbbb"; "dsss"; "dsdd"] ++
  cross five (all2 append ["sb"; "db"] ll ++ ["dsee"; "dsmumu"; "dstautau"]) ++
  cross ["nu1"; "nu1p"] (all2 append dd_bern ll) ++
  cross ["7"; "7p"] (map (append "gamma") dd_bern) ++
  cross ["8"; "8p"] (map (append "g") dd_bern).
(* the two leptons differ *)
Definition lfv_pairs : list string := ["emu"; "mue"; "etau"; "taue"; "mutau"; "taumu"].
(* s -> d l l' with l <> l' *)
Definition sd_lfv : list string := under ["C9"; "C9p"; "C10"; "C10p"; "CS"; "CSp"; "CP"; "CPp"] (all2 append ["sd"] lfv_pairs).
(* the tensor operators q q' l l' with q <> q' *)
Definition is_tensor (k : string) : bool := String.prefix "T" k.
Definition semileptonic_tensors : list string :=
  filter is_tensor (of_sectors (["sb"; "db"; "sd"; "cu"] ++ all2 append ["sb"; "db"; "sd"] lfv_pairs)).
(* the Bern coefficients 7, 7' of q q' l l' and their partners 9, 9' *)
Definition bern_tensors : list (string * string) :=
  flat_map (fun f => [("7" ++ f, "9" ++ f); ("7p" ++ f, "9p" ++ f)]%string) (all2 append ["sb"; "db"] ll ++ ["dsee"; "dsmumu"; "dstautau"]).

(* the dictionary B holds exactly the keys ks, with the values f *)
Definition holds {K : StarField} (B : dict string K) (ks : list string) (f : string -> K) : Prop :=
  forall k, dget B k = if kmem k ks then Some (f k) else None.

(* ---------- linear maps ---------- *)
(* C is the combination a C1 + b C2, absent coefficients counting as 0 *)
Definition combines {K : StarField} (a b : K) (C1 C2 C : dict string K) : Prop :=
  forall k, dgetd C k 0%K = (a * dgetd C1 k 0 + b * dgetd C2 k 0)%K.
(* the translator T is defined on combinations of dictionaries in the domain, and real-linear *)
Definition real_linear {K : StarField} (dom : dict string K -> Prop) (T : dict string K -> res (dict string K)) : Prop :=
  forall a b C1 C2 C, kreal a -> kreal b -> dom C1 -> dom C2 -> dom C -> combines a b C1 C2 C ->
  exists D1 D2 D, T C1 = Ok D1 /\ T C2 = Ok D2 /\ T C = Ok D /\ combines a b D1 D2 D.

(* ---------- the FormFlavor basis ---------- *)
(* a sum of rational multiples of (possibly conjugated) JMS coefficients *)
Definition term := (Q * string * bool)%type.
Definition sum_terms {K : StarField} (C : dict string K) (l : list term) : K :=
  fold_right (fun (t : term) s => kQ (fst (fst t)) * (let v := dgetd C (snd (fst t)) 0 in if snd t then v^* else v) + s)%K 0%K l.
(* Delta F = 2 transition between the down quarks i and j *)
Definition ff_df2 (x ij ji : string) : list (string * list term) :=
  [("CVLL_" ++ x ++ x, [((Qmake 1 1), "VddLL_" ++ ij ++ ij, false)]);
   ("CVRR_" ++ x ++ x, [((Qmake 1 1), "VddRR_" ++ ij ++ ij, false)]);
   ("CVLR_" ++ x ++ x, [((Qmake 1 1), "V1ddLR_" ++ ij ++ ij, false); (Qmake (-1) 6, "V8ddLR_" ++ ij ++ ij, false)]);
   ("CSLR_" ++ x ++ x, [(Qmake (-1) 1, "V8ddLR_" ++ ij ++ ij, false)]);
   ("CSRR_" ++ x ++ x, [((Qmake 1 1), "S1ddRR_" ++ ij ++ ij, false); (Qmake 1 12, "S8ddRR_" ++ ij ++ ij, false)]);
   ("CTRR_" ++ x ++ x, [(Qmake (-1) 16, "S8ddRR_" ++ ij ++ ij, false)]);
   ("CSLL_" ++ x ++ x, [((Qmake 1 1), "S1ddRR_" ++ ji ++ ji, true); (Qmake 1 12, "S8ddRR_" ++ ji ++ ji, true)]);
   ("CTLL_" ++ x ++ x, [(Qmake (-1) 16, "S8ddRR_" ++ ji ++ ji, true)])]%string.
(* b -> q mu mu *)
Definition ff_mm (x sb bs : string) : list (string * list term) :=
  [("CVLL_" ++ x ++ "mm", [((Qmake 1 1), "VedLL_22" ++ sb, false)]);
   ("CVRR_" ++ x ++ "mm", [((Qmake 1 1), "VedRR_22" ++ sb, false)]);
   ("CVLR_" ++ x ++ "mm", [((Qmake 1 1), "VdeLR_" ++ sb ++ "22", false)]);
   ("CVRL_" ++ x ++ "mm", [((Qmake 1 1), "VedLR_22" ++ sb, false)]);
   ("CSLL_" ++ x ++ "mm", [((Qmake 1 1), "SedRR_22" ++ bs, true)]);
   ("CSRR_" ++ x ++ "mm", [((Qmake 1 1), "SedRR_22" ++ sb, false)]);
   ("CSLR_" ++ x ++ "mm", [((Qmake 1 1), "SedRL_22" ++ sb, false)]);
   ("CSRL_" ++ x ++ "mm", [((Qmake 1 1), "SedRL_22" ++ bs, true)]);
   ("CTLL_" ++ x ++ "mm", [((Qmake 1 1), "TedRR_22" ++ bs, true)]);
   ("CTRR_" ++ x ++ "mm", [((Qmake 1 1), "TedRR_22" ++ sb, false)])]%string.
Definition ff_expected : list (string * list term) :=
  ff_df2 "bs" "23" "32" ++ ff_df2 "bd" "13" "31" ++ ff_df2 "sd" "12" "21" ++ ff_mm "bs" "23" "32" ++ ff_mm "bd" "13" "31" ++
  [("CVLL_cucu", [((Qmake 1 1), "VuuLL_1212", false)]); ("CVRR_cucu", [((Qmake 1 1), "VuuRR_1212", false)]);
   ("CVLR_cucu", [((Qmake 1 1), "V1uuLR_1212", false); (Qmake (-1) 6, "V8uuLR_1212", false)]); ("CSLR_cucu", [(Qmake (-1) 1, "V8uuLR_1212", false)])].
(* the neutrino coefficients of the transition i -> j, averaged over the flavours *)
Definition nunu_average (op ij : string) (conj : bool) : list term :=
  map (fun l => ((1#3)%Q, (op ++ "_" ++ l ++ ij)%string, conj)) ["11"; "22"; "33"].
(* dipoles of the fermions i and j: divided by e (photon) or by g_s (gluon) *)
Definition ff_dipoles : list (string * (string * bool * bool)) :=
  flat_map (fun x => let '(n, q, ij, ji) := x in
    [("CAR_" ++ n, (q ++ "gamma_" ++ ij, false, false)); ("CAL_" ++ n, (q ++ "gamma_" ++ ji, true, false));
     ("CGR_" ++ n, (q ++ "G_" ++ ij, false, true)); ("CGL_" ++ n, (q ++ "G_" ++ ji, true, true))]%string)
    [("sb", "d", "23", "32"); ("db", "d", "13", "31"); ("uu", "u", "11", "11"); ("dd", "d", "11", "11")] ++
  [("CAR_mt", ("egamma_23", false, false)); ("CAR_em", ("egamma_12", false, false)); ("CAR_et", ("egamma_13", false, false))].

(* ---------- FlavorKit ---------- *)
(* the two tables (data/flavorkit_jms.json, data/flavorkit_jms_conj.json), two special cases and the dipoles *)
Definition flavorkit_keys : list string := dkeys flavorkit_jms ++ dkeys flavorkit_jms_conj ++ ["AVLL_2231"; "AVRR_2231"] ++ under ["K2R"] ["12"; "13"; "21"; "23"; "31"; "32"].
Definition flavorkit_images : list string := map snd flavorkit_jms ++ map snd flavorkit_jms_conj ++ ["VeeLL_1223"; "VeeRR_1223"] ++ under ["egamma"] ["21"; "31"; "12"; "32"; "13"; "23"].
(* all keys of the dictionary are among ks *)
Definition keys_in {K : StarField} (ks : list string) (C : dict string K) : Prop := wfdict C /\ incl (dkeys C) ks.

(* ---------- sectors ---------- *)
(* the sectors of the basis are those of the table, up to the order of the coefficients *)
Definition sectors_ok (js : dict string (list string)) : Prop :=
  forall s, match dget js s with Some ks => forall k, In k ks <-> In k (dgetd coeffs s []) | None => dget coeffs s = None end.
(* all non-zero coefficients belong to the sectors ss *)
Definition supported {K : StarField} (ss : list string) (C : dict string K) : Prop :=
  forall k, dgetd C k 0%K <> 0%K -> In k (of_sectors ss).
