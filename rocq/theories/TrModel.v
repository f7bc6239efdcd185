(* The translators between the WET bases: the "final dictionaries" of
   wilson/translate/wet.py 1725-2279, on top of the generated functions of TrBlocks.v.

   get_parameters (1700-1722) is replaced by the parameters tpar: the numbers it puts in the
   dictionary are arbitrary here (the running masses and couplings are the subject of QcdModel.v).
   The key lists of the bases WET/Bern and WET/flavio are parameters (the basis files are not part
   of the checkout); that of WET/JMS is the parameter all. *)
From Coq Require Import List Bool ZArith QArith Arith Lia String Ascii.
From Verif Require Import PyBase Num SymModel EftModel JmsModel TrLang TrData TrBlocks.
Import ListNotations.
Local Open Scope string_scope.
Local Open Scope list_scope.

(* lflav.keys(), uflav.keys() *)
Definition leps : list string := ["e"; "mu"; "tau"].
Definition ups : list string := ["u"; "c"].
Definition sect := option (list string).
Definition is_none (s : sect) : bool := match s with None => true | Some _ => false end.
(* x in sectors (sectors is a tuple or a set of strings) *)
Definition has (s : sect) (x : string) : bool := match s with None => false | Some l => kmem x l end.
(* bool(set(sectors) & {...}) *)
Definition meets (s : sect) (l : list string) : bool := existsb (has s) l.
Definition when {A} (b : bool) (l : list A) : list A := if b then l else [].
Definition for2 {A} (f : string -> string -> list A) : list A := flat_map (fun l => flat_map (f l) leps) leps.
(* qq+'l_'+l+'nu_'+lp *)
Definition semi (qq l lp : string) : string := (qq ++ "l_" ++ l ++ "nu_" ++ lp)%string.
Definition class2_qq : list string := ["cb"; "ub"; "us"; "cs"; "cd"; "ud"].
Definition pre_div : sc := ((SY Ysqrt2 / SY YGF) / SZ 4)%sc.          (* sqrt(2)/p['GF']/4 *)
Definition pre_mul : sc := ((SZ 4 * SY YGF) / SY Ysqrt2)%sc.          (* 4 * p['GF'] / sqrt(2) *)

(* JMS_to_EOS, 1727-1765.  d.update(f(g(C, x), x, p)) is PThen g f *)
Definition p_JMS_to_EOS : prog := PUpd (
  (* Class I *)
  [_JMS_to_EOS_I "sb"] ++
  (* Class II *)
  flat_map (fun l => [PThen (_JMS_to_Bern_II (semi "ub" l l)) (_BernII_to_EOS_II (semi "ub" l l));
                      PThen (_JMS_to_Bern_II (semi "cb" l l)) (_BernII_to_EOS_II (semi "cb" l l))]) leps ++
  (* Class III *)
  map (fun qqqq => PThen (_JMS_to_Fierz_III_IV_V qqqq) (_Fierz_to_EOS_III qqqq)) ["sbcu"; "dbcu"] ++
  (* Class V *)
  [PThen (PUpd (map _JMS_to_Fierz_III_IV_V ["sbuu"; "sbdd"; "sbcc"; "sbss"; "sbbb"])) _Fierz_to_EOS_V;
   PThen (JMS_to_Fierz_lep "sbl_enu_e") (Fierz_to_EOS_lep "sbl_enu_e");
   PThen (JMS_to_Fierz_lep "sbl_munu_mu") (Fierz_to_EOS_lep "sbl_munu_mu");
   PThen (JMS_to_Fierz_chrom "sb") (Fierz_to_EOS_chrom "sb")]).

Definition nunull_sectors : list string := ["nunumue"; "nunumutau"; "nunutaue"].
Definition lfv_sectors : list string :=
  ["mutau"; "mue"; "taue"; "tauetaue"; "taumutaumu"; "muemue"; "muemutau"; "etauemu"; "tauetaumu"].
(* dlep, 1854-1858 and 2207-2212 *)
Definition dlep (s : sect) : dict string string :=
  let d := if is_none s || meets s nunull_sectors then dupdate [] flavio_jms_nunull else [] in
  if is_none s || meets s lfv_sectors then dupdate d flavio_jms_lfv else d.

(* JMS_to_flavio, 1768-1863 *)
Definition JMS_to_flavio_parts (s : sect) : list prog :=
  (* Class I *)
  flat_map (fun qq => when (is_none s || has s (str_twice qq) || (String.eqb qq "ds" && has s (str_twice "sd")))
    [PThen (_JMS_to_Bern_I qq) (_BernI_to_Flavio_I qq)]) ["sb"; "db"; "ds"; "cu"] ++
  (* Class II *)
  for2 (fun l lp => flat_map (fun qq => when (is_none s || has s (qq ++ l ++ "nu")%string)
    [PThen (_JMS_to_Bern_II (semi qq l lp)) (_BernII_to_Flavio_II (semi qq l lp))]) class2_qq) ++
  (* Class V semileptonic *)
  for2 (fun l lp =>
    (* ddnunu *)
    when (is_none s || has s "sbnunu") [PThen (JMS_to_Fierz_nunu (semi "sb" l lp)) (Fierz_to_Flavio_nunu (semi "sb" l lp) true)] ++
    when (is_none s || has s "dbnunu") [PThen (JMS_to_Fierz_nunu (semi "db" l lp)) (Fierz_to_Flavio_nunu (semi "db" l lp) true)] ++
    when (is_none s || has s "sdnunu") [PThen (JMS_to_Fierz_nunu (semi "ds" l lp)) (Fierz_to_Flavio_nunu (semi "ds" l lp) true)] ++
    (* ddll *)
    when (is_none s || (has s "sb" && String.eqb l lp) || has s ("sb" ++ l ++ lp)%string)
      [PThen (JMS_to_Fierz_lep (semi "sb" l lp)) (Fierz_to_Flavio_lep (semi "sb" l lp) true)] ++
    when (is_none s || (has s "db" && String.eqb l lp) || has s ("db" ++ l ++ lp)%string)
      [PThen (JMS_to_Fierz_lep (semi "db" l lp)) (Fierz_to_Flavio_lep (semi "db" l lp) true)] ++
    when (is_none s || (has s "sd" && String.eqb l lp) || has s ("sd" ++ lp ++ l)%string)
      [PThen (JMS_to_Fierz_lep (semi "ds" l lp)) (Fierz_to_Flavio_lep (semi "ds" l lp) true)] ++
    (* uull *)
    when (is_none s || (has s "cu" && String.eqb l lp)) (when (String.eqb l lp)
      [PThen (JMS_to_Fierz_lep (semi "uc" l lp)) (Fierz_to_Flavio_lep (semi "uc" l lp) true)])) ++
  (* Class V non-leptonic *)
  flat_map (fun qq1 => when (is_none s || has s qq1 || (String.eqb qq1 "ds" && has s "sd") || (String.eqb qq1 "uc" && has s "cu"))
    (map (fun qq2 => PThen (_JMS_to_Fierz_III_IV_V (qq1 ++ qq2)%string) (_Fierz_to_Flavio_V (qq1 ++ qq2)%string)) ["uu"; "dd"; "ss"; "cc"; "bb"]))
    ["ds"; "sb"; "db"; "uc"] ++
  (* Class V chromomagnetic *)
  when (is_none s || has s "sb") [PThen (JMS_to_Fierz_chrom "sb") (Fierz_to_Flavio_chrom "sb")] ++
  when (is_none s || has s "db") [PThen (JMS_to_Fierz_chrom "db") (Fierz_to_Flavio_chrom "db")] ++
  when (is_none s || has s "sd") [PThen (JMS_to_Fierz_chrom "ds") (Fierz_to_Flavio_chrom "ds")] ++
  when (is_none s || has s "cu") [PThen (JMS_to_Fierz_chrom "uc") (Fierz_to_Flavio_chrom "uc")] ++
  (* Class VII *)
  when (is_none s || has s "dF=0" || has s "ffnunu") [_JMS_to_Flavio_VII].
Definition p_JMS_to_flavio (s : sect) : prog := PUpd (JMS_to_flavio_parts s ++ [PCond (dlep s)]).

(* Bern_to_flavio, 1866-1925 *)
Definition p_Bern_to_flavio : prog := PDivS (PUpd (
  map _BernI_to_Flavio_I ["sb"; "db"; "ds"; "cu"] ++
  for2 (fun l lp => map (fun qq => _BernII_to_Flavio_II (semi qq l lp)) class2_qq) ++
  for2 (fun l lp =>
    map (fun qq => PThen (Bern_to_Fierz_lep (semi qq l lp)) (Fierz_to_Flavio_lep (semi qq l lp) true)) ["sb"; "db"; "ds"] ++
    map (fun qq => PThen (Bern_to_Fierz_nunu (semi qq l lp)) (Fierz_to_Flavio_nunu (semi qq l lp) true)) ["sb"; "db"; "ds"]) ++
  flat_map (fun qq1 => map (fun qq2 => PThen (_Bern_to_Fierz_III_IV_V (qq1 ++ qq2)%string) (_Fierz_to_Flavio_V (qq1 ++ qq2)%string))
    ["uu"; "dd"; "ss"; "cc"; "bb"]) ["ds"; "sb"; "db"] ++
  map (fun qq => PThen (Bern_to_Fierz_chrom qq) (Fierz_to_Flavio_chrom qq)) ["sb"; "db"; "ds"])) pre_div.

(* flavio_to_Bern, 1929-1990 *)
Definition p_flavio_to_Bern : prog := PScale pre_div (PUpd (
  map _FlavioI_to_Bern_I ["bs"; "bd"; "sd"; "uc"] ++
  for2 (fun l lp => map (fun qq => _FlavioII_to_BernII (semi qq l lp)) class2_qq) ++
  for2 (fun l lp =>
    [PThen (Flavio_to_Fierz_lep (semi "sb" l lp) true) (Fierz_to_Bern_lep (semi "sb" l lp));
     PThen (Flavio_to_Fierz_lep (semi "db" l lp) true) (Fierz_to_Bern_lep (semi "db" l lp))] ++
    when (String.eqb l lp)                                                       (* l+l- only for l=l' *)
    [PThen (Flavio_to_Fierz_lep (semi "ds" l lp) true) (Fierz_to_Bern_lep (semi "ds" l lp))] ++
    map (fun qq => PThen (Flavio_to_Fierz_nunu (semi qq l lp) true) (Fierz_to_Bern_nunu (semi qq l lp))) ["sb"; "db"; "ds"]) ++
  flat_map (fun qq1 => map (fun qq2 => PThen (_Flavio_to_Fierz_V (qq1 ++ qq2)%string) (_Fierz_to_Bern_III_IV_V (qq1 ++ qq2)%string))
    ["uu"; "dd"; "ss"; "cc"; "bb"]) ["ds"; "sb"; "db"] ++
  map (fun qq => PThen (Flavio_to_Fierz_chrom qq) (Fierz_to_Bern_chrom qq)) ["sb"; "db"; "ds"])).

(* JMS_to_FormFlavor, 1992-2008 *)
Definition p_JMS_to_FormFlavor : prog := PUpd (
  map (fun qq => PThen (_JMS_to_Bern_I qq) (_BernI_to_FormFlavor_I qq)) ["sb"; "db"; "ds"; "cu"] ++
  [JMS_to_FormFlavor_lep "bs"; JMS_to_FormFlavor_lep "bd"] ++
  map JMS_to_FormFlavor_chrom ["sb"; "db"; "uu"; "dd"; "mt"; "em"; "et"]).

Definition bern_qqqq : list string :=
  ["sbdd"; "sbss"; "dbdd"; "dbss"; "dbbb"; "sbbb"; "dbds"; "sbsd"; "dsbb"; "dsss"; "dsdd"].
(* JMS_to_Bern, 2011-2066 *)
Definition p_JMS_to_Bern : prog := PScale pre_div (PUpd (
  map _JMS_to_Bern_I ["sb"; "db"; "ds"; "cu"] ++
  for2 (fun l lp => map (fun qq => _JMS_to_Bern_II (semi qq l lp)) class2_qq) ++
  flat_map (fun u1 => flat_map (fun u2 => map (fun dd =>
    PThen (_JMS_to_Fierz_III_IV_V (dd ++ u1 ++ u2)%string) (_Fierz_to_Bern_III_IV_V (dd ++ u1 ++ u2)%string)) ["sb"; "db"; "ds"]) ups) ups ++
  map (fun qqqq => PThen (_JMS_to_Fierz_III_IV_V qqqq) (_Fierz_to_Bern_III_IV_V qqqq)) bern_qqqq ++
  for2 (fun l lp =>
    map (fun qq => PThen (JMS_to_Fierz_lep (semi qq l lp)) (Fierz_to_Bern_lep (semi qq l lp))) ["sb"; "db"; "ds"] ++
    map (fun qq => PThen (JMS_to_Fierz_nunu (semi qq l lp)) (Fierz_to_Bern_nunu (semi qq l lp))) ["sb"; "db"; "ds"]) ++
  map (fun qq => PThen (JMS_to_Fierz_chrom qq) (Fierz_to_Bern_chrom qq)) ["sb"; "db"; "ds"])).

(* Bern_to_JMS, 2069-2122 *)
Definition p_Bern_to_JMS : prog := PScale pre_mul (PUpd (
  map _Bern_to_JMS_I ["sb"; "db"; "ds"; "cu"] ++
  for2 (fun l lp => map (fun qq => _Bern_to_JMS_II (semi qq l lp)) class2_qq) ++
  flat_map (fun u1 => flat_map (fun u2 => map (fun dd =>
    PThen (_Bern_to_Fierz_III_IV_V (dd ++ u1 ++ u2)%string) (_Fierz_to_JMS_III_IV_V (dd ++ u1 ++ u2)%string)) ["sb"; "db"; "ds"]) ups) ups ++
  map (fun qqqq => PThen (_Bern_to_Fierz_III_IV_V qqqq) (_Fierz_to_JMS_III_IV_V qqqq)) bern_qqqq ++
  for2 (fun l lp => flat_map (fun qq =>
    [PThen (Bern_to_Fierz_lep (semi qq l lp)) (Fierz_to_JMS_lep (semi qq l lp));
     PThen (Bern_to_Fierz_nunu (semi qq l lp)) (Fierz_to_JMS_nunu (semi qq l lp))]) ["sb"; "db"; "ds"]) ++
  map (fun qq => PThen (Bern_to_Fierz_chrom qq) (Fierz_to_JMS_chrom qq)) ["sb"; "db"; "ds"])).

(* flavio_to_JMS, 2125-2217 *)
Definition flavio_to_JMS_parts (s : sect) : list prog :=
  flat_map (fun qq => let qqr := str_rev qq in when (is_none s || has s (str_twice qqr) || has s (str_twice qq))
    [PThen (_FlavioI_to_Bern_I qq) (_Bern_to_JMS_I qqr)]) ["bs"; "bd"; "sd"; "uc"] ++
  for2 (fun l lp => flat_map (fun qq => when (is_none s || has s (qq ++ l ++ "nu")%string)
    [PThen (_FlavioII_to_BernII (semi qq l lp)) (_Bern_to_JMS_II (semi qq l lp))]) class2_qq) ++
  for2 (fun l lp =>
    (* ddll *)
    when (is_none s || (has s "sb" && String.eqb l lp) || has s ("sb" ++ l ++ lp)%string)
      [PThen (Flavio_to_Fierz_lep (semi "sb" l lp) true) (Fierz_to_JMS_lep (semi "sb" l lp))] ++
    when (is_none s || (has s "db" && String.eqb l lp) || has s ("db" ++ l ++ lp)%string)
      [PThen (Flavio_to_Fierz_lep (semi "db" l lp) true) (Fierz_to_JMS_lep (semi "db" l lp))] ++
    when (is_none s || (has s "sd" && String.eqb l lp) || has s ("sd" ++ lp ++ l)%string)
      [PThen (Flavio_to_Fierz_lep (semi "ds" l lp) true) (Fierz_to_JMS_lep (semi "ds" l lp))] ++
    (* ddnunu *)
    when (is_none s || has s "sbnunu") [PThen (Flavio_to_Fierz_nunu (semi "sb" l lp) true) (Fierz_to_JMS_nunu (semi "sb" l lp))] ++
    when (is_none s || has s "dbnunu") [PThen (Flavio_to_Fierz_nunu (semi "db" l lp) true) (Fierz_to_JMS_nunu (semi "db" l lp))] ++
    when (is_none s || has s "sdnunu") [PThen (Flavio_to_Fierz_nunu (semi "ds" l lp) true) (Fierz_to_JMS_nunu (semi "ds" l lp))] ++
    (* uull *)
    when (is_none s || (has s "cu" && String.eqb l lp)) (when (String.eqb l lp)
      [PThen (Flavio_to_Fierz_lep (semi "uc" l lp) true) (Fierz_to_JMS_lep (semi "uc" l lp))])) ++
  flat_map (fun qq1 => when (is_none s || has s qq1 || (String.eqb qq1 "ds" && has s "sd") || (String.eqb qq1 "uc" && has s "cu"))
    (map (fun qq2 => PThen (_Flavio_to_Fierz_V (qq1 ++ qq2)%string) (_Fierz_to_JMS_III_IV_V (qq1 ++ qq2)%string)) ["uu"; "dd"; "ss"; "cc"; "bb"]))
    ["ds"; "sb"; "db"; "uc"] ++
  when (is_none s || has s "sb") [PThen (Flavio_to_Fierz_chrom "sb") (Fierz_to_JMS_chrom "sb")] ++
  when (is_none s || has s "db") [PThen (Flavio_to_Fierz_chrom "db") (Fierz_to_JMS_chrom "db")] ++
  when (is_none s || has s "sd") [PThen (Flavio_to_Fierz_chrom "ds") (Fierz_to_JMS_chrom "ds")] ++
  when (is_none s || has s "cu") [PThen (Flavio_to_Fierz_chrom "uc") (Fierz_to_JMS_chrom "uc")] ++
  when (is_none s || has s "dF=0" || has s "ffnunu") [_Flavio_to_JMS_VII].
Definition swap_pairs (l : list (string * string)) : list (string * string) := map (fun x => (snd x, fst x)) l.
Definition p_flavio_to_JMS (s : sect) : prog := PUpd (flavio_to_JMS_parts s ++ [PCond (swap_pairs (dlep s))]).

(* FlavorKit_to_JMS, 2220-2246: the value of one key.  m is unbound when the second index is
   not 1, 2 or 3; ind[1] of a string that is too short is an IndexError *)
Definition fk_mass (c : string) : res sc :=
  if String.eqb c "1" then Ok (SY Ym_e) else if String.eqb c "2" then Ok (SY Ym_mu)
  else if String.eqb c "3" then Ok (SY Ym_tau) else if String.eqb c "" then Err IndexError else Err UnboundLocalError.
Definition FlavorKit_to_JMS_entry (k : string) : res (option (string * ex)) :=
  match dget flavorkit_jms k with
  | Some j => Ok (Some (j, EKey k))
  | None =>
    match dget flavorkit_jms_conj k with
    | Some j => Ok (Some (j, EConj (EKey k)))
    | None =>
      if String.eqb k "AVLL_2231" then Ok (Some ("VeeLL_1223", EKey k))
      else if String.eqb k "AVRR_2231" then Ok (Some ("VeeRR_1223", EKey k))
      else if String.eqb (str_to k 4) "K2R_" then
        let ind := str_rev (str_from k 4) in
        bind (fk_mass (str_at ind 1)) (fun m =>
        Ok (Some (("egamma_" ++ ind)%string, EScale (((SZ 1 / SZ 2) * SY Ye) * m)%sc (EKey k))))
      else Err ValueError
    end
  end.
Definition p_FlavorKit_to_JMS : prog := PEach FlavorKit_to_JMS_entry.
(* {v: k for k, v in d.items()} *)
Definition revert (d : dict string string) : dict string string := fold_left (fun r kv => dset r (snd kv) (fst kv)) d [].
(* JMS_to_FlavorKit, 2249-2279 *)
Definition JMS_to_FlavorKit_entry (k : string) : res (option (string * ex)) :=
  match dget (revert flavorkit_jms) k with
  | Some f => Ok (Some (f, EKey k))
  | None =>
    match dget (revert flavorkit_jms_conj) k with
    | Some f => Ok (Some (f, EConj (EKey k)))
    | None =>
      if String.eqb k "VeeLL_1223" then Ok (Some ("AVLL_2231", EKey k))
      else if String.eqb k "VeeRR_1223" then Ok (Some ("AVRR_2231", EKey k))
      else match split_us k with
      | n :: r =>
          if String.eqb n "egamma" then
            match r with
            | [] => Err IndexError
            | ij :: _ =>
                let ind := str_rev ij in
                if (String.length ind <? 2)%nat then Err IndexError else
                if String.eqb (str_at ind 0) (str_at ind 1) then Ok None else
                bind (fk_mass (str_at ind 0)) (fun m =>
                Ok (Some (("K2R_" ++ ind)%string, EScale ((SZ 2 / SY Ye) / m)%sc (EKey k))))
            end
          else Ok None
      | [] => Ok None
      end
    end
  end.
Definition p_JMS_to_FlavorKit : prog := PEach JMS_to_FlavorKit_entry.

Section Top.
Context {K : StarField}.
Local Open Scope K_scope.
Variable p : tpar K.                                       (* get_parameters(scale, f=5, ...) *)
Variable all : list string.                                (* wcxf.Basis['WET', 'JMS'].all_wcs *)
Variable jms_sectors : dict string (list string).          (* its sectors *)
Variable bern_wcs flavio_wcs : list string.                (* wcxf.Basis['WET', 'Bern'].all_wcs, .. 'flavio' *)
(* C = {k: C_incomplete.get(k, 0) for k in wc_keys} *)
Definition complete (ks : list string) (C : dict string K) : dict string K := map (fun k => (k, dgetd C k 0)) ks.
Definition from_jms (P : prog) (Cflat : dict string K) (s : sect) : res (dict string K) :=
  bind (JMS_to_array all jms_sectors Cflat s) (fun C => run p all P (mkEnv Cflat C)).
Definition JMS_to_EOS (C : dict string K) (s : sect) := from_jms p_JMS_to_EOS C s.
Definition JMS_to_flavio (C : dict string K) (s : sect) := from_jms (p_JMS_to_flavio s) C s.
Definition JMS_to_FormFlavor (C : dict string K) (s : sect) := from_jms p_JMS_to_FormFlavor C s.
Definition JMS_to_Bern (C : dict string K) (s : sect) := from_jms p_JMS_to_Bern C s.
Definition Bern_to_flavio (C : dict string K) := run p all p_Bern_to_flavio (mkEnv (complete bern_wcs C) []).
Definition flavio_to_Bern (C : dict string K) := run p all p_flavio_to_Bern (mkEnv (complete flavio_wcs C) []).
Definition Bern_to_JMS (C : dict string K) := run p all p_Bern_to_JMS (mkEnv (complete bern_wcs C) []).
Definition flavio_to_JMS (C : dict string K) (s : sect) := run p all (p_flavio_to_JMS s) (mkEnv (complete flavio_wcs C) []).
Definition FlavorKit_to_JMS (C : dict string K) := run p all p_FlavorKit_to_JMS (mkEnv C []).
Definition JMS_to_FlavorKit (C : dict string K) := run p all p_JMS_to_FlavorKit (mkEnv C []).
End Top.

(* Translator.translate, wcxf/classes.py:489-507: zero values are dropped.  WC.dict2values and
   WC.dict (complex numbers as Re and Im) are the identity, see WcxfModel.v. *)
Definition translate {K : StarField} (T : dict string K -> res (dict string K)) (C : dict string K) : res (dict string K) :=
  bind (T C) (fun d => Ok (dfilter (fun _ v => negb (kdec v 0%K)) d)).
