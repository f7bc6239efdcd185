(* C37: threshold matching keeps the coefficients of the lower theory.
   C48: composite translators and matchers do the same as the steps they are composed of. *)
From Coq Require Import List Bool String Ascii ZArith Lia.
From Verif Require Import PyBase Num WcxfModel WcxfProofs RegModel.
Import ListNotations.
Local Open Scope string_scope.
Local Open Scope list_scope.

Section RegP.
Context {K : StarField} {P : Type}.
Notation cd := (dict string K).

(* ---------- specification ---------- *)
(* the thresholds: theory above, basis, theory below *)
Definition thresholds : list (string * string * string) :=
  [("WET", "flavio", "WET-4"); ("WET-4", "flavio", "WET-3"); ("WET", "Bern", "WET-4"); ("WET-4", "Bern", "WET-3");
   ("WET", "JMS", "WET-4"); ("WET-4", "JMS", "WET-3"); ("WET-3", "JMS", "WET-2")].
(* the coefficients of a basis *)
Definition basis_keys (br : basis_reg K) (eft basis : string) (keys : list string) : Prop :=
  exists b, reg_get br (eft, basis) = Ok b /\ all_wcs b = Ok keys.
Definition proper (w : WC K) : Prop := wfdict (wc_values w).

Lemma ma_keep (F : functions K P) (br : basis_reg K) hi basis lo : In (hi, basis, lo) thresholds ->
  reg_get (ma_all (P := P) F br) (((hi, basis), lo), basis) = Ok (keep br lo basis).
Proof. cbn [thresholds In]. intros I. repeat (destruct I as [[= <- <- <-]|I]; [reflexivity|]). destruct I. Qed.
Lemma hi_lo hi basis lo : In (hi, basis, lo) thresholds -> lo <> hi.
Proof. cbn [thresholds In]. intros I. repeat (destruct I as [[= <- <- <-]|I]; [discriminate|]). destruct I. Qed.
Lemma wc_dict_wf (w : WC K) : proper w -> wfdict (wc_dict w).
Proof. unfold proper, wfdict, wc_dict. now rewrite dkeys_dmap. Qed.

(* ---------- C37 ---------- *)
Theorem C37_threshold (F : functions K P) (br : basis_reg K) (w : WC K) lo keys params h :
  In (wc_eft w, wc_basis w, lo) thresholds -> basis_keys br lo (wc_basis w) keys -> proper w ->
  exists w', wc_match (ma_all (P := P) F br) w lo (wc_basis w) params h = Ok w' /\
    wc_eft w' = lo /\ wc_basis w' = wc_basis w /\ wc_scale w' = wc_scale w /\ proper w' /\
    (forall k, In k keys -> wc_getitem w' k = wc_getitem w k) /\
    (forall k, ~ In k keys -> wc_getitem w' k = k0) /\
    (forall k, In k (dkeys (wc_values w')) -> wc_getitem w' k <> k0).
Proof.
  intros T (b & B1 & B2) Pw.
  pose proof (ma_keep F br _ _ _ T) as G. pose proof (hi_lo _ _ _ T) as N.
  assert (EV : keep (P := P) br lo (wc_basis w) (wc_dict w) (wc_scale w) params = Ok (dfilter (fun k _ => kmem k keys) (wc_dict w))).
  { unfold keep. rewrite B1. cbn [bind]. rewrite B2. reflexivity. }
  pose proof (wc_dict_wf w Pw) as W.
  assert (W' : wfdict (dfilter (fun k (_ : K) => kmem k keys) (wc_dict w))) by now apply wf_dfilter.
  destruct (match_spec (ma_all F br) w lo (wc_basis w) params h _ _ (fun E => N (f_equal fst E)) G EV W') as (w' & E & E1 & E2 & E3 & E4 & E5).
  exists w'. split; [exact E|]. repeat (split; [assumption|]).
  assert (D : forall k, wc_getitem w' k = if kmem k keys then wc_getitem w k else k0).
  { intros k. rewrite E5. rewrite dget_dfilter by exact W. unfold wc_getitem. destruct (dget (wc_dict w) k) as [v|]; [destruct (kmem k keys); reflexivity|destruct (kmem k keys); reflexivity]. }
  repeat split; auto.
  - unfold wc_match in E. rewrite G in E. destruct (_ && _); [injection E as <-; exact Pw|]. unfold matcher_match in E. rewrite EV in E. injection E as <-.
    unfold proper, wfdict. cbn [wc_values]. unfold dict2values. rewrite dkeys_dmap. apply wf_dfilter. exact W'.
  - intros k I. rewrite D. apply kmem_In in I. now rewrite I.
  - intros k I. rewrite D. apply kmem_nIn in I. now rewrite I.
Qed.

(* crossing two thresholds keeps what is in both bases; with nested bases, what is in the last *)
Theorem C37_two_thresholds (F : functions K P) (br : basis_reg K) (w : WC K) mid lo kmid klo params h1 h2 :
  In (wc_eft w, wc_basis w, mid) thresholds -> In (mid, wc_basis w, lo) thresholds ->
  basis_keys br mid (wc_basis w) kmid -> basis_keys br lo (wc_basis w) klo -> proper w ->
  exists w1 w2, wc_match (ma_all (P := P) F br) w mid (wc_basis w) params h1 = Ok w1 /\
    wc_match (ma_all (P := P) F br) w1 lo (wc_basis w) params h2 = Ok w2 /\
    wc_eft w2 = lo /\ wc_basis w2 = wc_basis w /\ wc_scale w2 = wc_scale w /\
    (forall k, In k kmid -> In k klo -> wc_getitem w2 k = wc_getitem w k) /\
    (forall k, ~ In k kmid \/ ~ In k klo -> wc_getitem w2 k = k0).
Proof.
  intros T1 T2 B1 B2 Pw.
  destruct (C37_threshold F br w mid kmid params h1 T1 B1 Pw) as (w1 & E1 & Ee & Eb & Es & P1 & I1 & O1 & _).
  rewrite <- Eb in B2. assert (T2' : In (wc_eft w1, wc_basis w1, lo) thresholds) by (rewrite Ee, Eb; exact T2).
  destruct (C37_threshold F br w1 lo klo params h2 T2' B2 P1) as (w2 & E2 & Fe & Fb & Fs & P2 & I2 & O2 & _).
  exists w1, w2. rewrite <- Eb. rewrite Eb at 1. split; [exact E1|]. split; [exact E2|]. split; [exact Fe|]. split; [congruence|]. split; [congruence|]. split.
  - intros k Im Il. rewrite I2 by exact Il. now apply I1.
  - intros k [Nm|Nl]; [|now apply O2]. destruct (kmem k klo) eqn:M.
    + apply kmem_In in M. rewrite I2 by exact M. now apply O1.
    + apply kmem_nIn in M. now apply O2.
Qed.
(* real-linear: a linear combination of the inputs goes to that of the outputs *)
Theorem C37_linear (F : functions K P) (br : basis_reg K) (w1 w2 w3 : WC K) (a b : K) lo keys params h1 h2 h3 :
  In (wc_eft w1, wc_basis w1, lo) thresholds -> wc_eft w2 = wc_eft w1 -> wc_basis w2 = wc_basis w1 -> wc_eft w3 = wc_eft w1 -> wc_basis w3 = wc_basis w1 ->
  basis_keys br lo (wc_basis w1) keys -> proper w1 -> proper w2 -> proper w3 ->
  (forall k, wc_getitem w3 k = (a * wc_getitem w1 k + b * wc_getitem w2 k)%K) ->
  exists v1 v2 v3, wc_match (ma_all (P := P) F br) w1 lo (wc_basis w1) params h1 = Ok v1 /\
    wc_match (ma_all (P := P) F br) w2 lo (wc_basis w1) params h2 = Ok v2 /\ wc_match (ma_all (P := P) F br) w3 lo (wc_basis w1) params h3 = Ok v3 /\
    forall k, wc_getitem v3 k = (a * wc_getitem v1 k + b * wc_getitem v2 k)%K.
Proof.
  intros T E2 B2 E3 B3 BK P1 P2 P3 L.
  destruct (C37_threshold F br w1 lo keys params h1 T BK P1) as (v1 & M1 & _ & _ & _ & _ & I1 & O1 & _).
  assert (T2 : In (wc_eft w2, wc_basis w2, lo) thresholds) by (rewrite E2, B2; exact T).
  assert (T3 : In (wc_eft w3, wc_basis w3, lo) thresholds) by (rewrite E3, B3; exact T).
  rewrite <- B2 in BK. destruct (C37_threshold F br w2 lo keys params h2 T2 BK P2) as (v2 & M2 & _ & _ & _ & _ & I2 & O2 & _).
  rewrite B2 in BK. rewrite <- B3 in BK. destruct (C37_threshold F br w3 lo keys params h3 T3 BK P3) as (v3 & M3 & _ & _ & _ & _ & I3 & O3 & _).
  rewrite B2 in M2. rewrite B3 in M3. exists v1, v2, v3. repeat (split; [assumption|]). intros k. destruct (kmem k keys) eqn:M.
  - apply kmem_In in M. rewrite I1, I2, I3 by exact M. apply L.
  - apply kmem_nIn in M. rewrite O1, O2, O3 by exact M. rewrite !kmul_0_r, kadd_0_l. reflexivity.
Qed.
(* without the lower basis: the exception of the lookup *)
Theorem C37_no_basis (F : functions K P) (br : basis_reg K) (w : WC K) lo params h e :
  In (wc_eft w, wc_basis w, lo) thresholds -> reg_get br (lo, wc_basis w) = Err e ->
  wc_match (ma_all (P := P) F br) w lo (wc_basis w) params h = Err e.
Proof.
  intros T B. unfold wc_match. rewrite (ma_keep F br _ _ _ T). pose proof (hi_lo _ _ _ T) as N.
  destruct (keqb_spec lo (wc_eft w)) as [->|_]; [congruence|]. cbn [andb]. unfold matcher_match, keep. rewrite B. reflexivity.
Qed.
(* no other threshold or change of theory is defined: ValueError *)
Theorem C37_nothing_else (F : functions K P) (br : basis_reg K) (w : WC K) eft basis params h :
  eft <> wc_eft w -> wc_eft w <> "SMEFT" -> ~ (basis = wc_basis w /\ In (wc_eft w, wc_basis w, eft) thresholds) ->
  wc_match (ma_all (P := P) F br) w eft basis params h = Err ValueError.
Proof.
  intros N NS NT. unfold wc_match. destruct (keqb_spec eft (wc_eft w)) as [->|_]; [congruence|]. cbn [andb].
  destruct (reg_get _ _) as [f|e] eqn:G; [exfalso|reflexivity].
  assert (S : ma_all F br = Some (matchers F br)) by reflexivity.
  rewrite S in G. cbn [reg_get] in G. destruct (dget _ _) as [g|] eqn:D in G; [|discriminate]. apply dget_Some_key in D.
  unfold dkeys, matchers in D. cbn [map fst In] in D.
  repeat (destruct D as [D|D]; [injection D as D1 D2 D3 D4; first [now apply NS|apply NT; rewrite <- D1, <- D2, <- D3, <- D4; split; [reflexivity|cbn; tauto]]|]). destruct D.
Qed.

(* ---------- C48 ---------- *)
(* [ok] describes dictionaries with coefficients of the right basis.  A function does not see
   zeros if dropping the zero entries of such an input does not change the nonzero entries of
   the output. *)
Definition nz (r : res cd) : res cd := rmap (dfilter nonzero) r.
Definition blind {A} (ok : cd -> Prop) (f : cd -> A -> res cd) : Prop := forall C x, ok C -> nz (f (dfilter nonzero C) x) = nz (f C x).
Lemma nz_mk (r : res cd) eft basis scale h : bind r (fun out => Ok (mkWC eft basis scale (dict2values (dfilter nonzero out)) [] h))
  = bind (nz r) (fun out => Ok (mkWC eft basis scale (dict2values out) [] h)).
Proof. destruct r; reflexivity. Qed.
Lemma tr_get F n f : dget (translators (P := P) F) n = Some f -> reg_get (tr_all (K := K) F) n = Ok f.
Proof. intros E. assert (S : tr_all F = Some (translators F)) by reflexivity. rewrite S. cbn [reg_get]. now rewrite E. Qed.
Lemma ma_get F br n f : dget (matchers (P := P) F br) n = Some f -> reg_get (ma_all (K := K) F br) n = Ok f.
Proof. intros E. assert (S : ma_all F br = Some (matchers F br)) by reflexivity. rewrite S. cbn [reg_get]. now rewrite E. Qed.
Lemma match_get F br (w : WC K) e b params h f : (e, b) <> (wc_eft w, wc_basis w) -> dget (matchers (P := P) F br) (((wc_eft w, wc_basis w), e), b) = Some f ->
  wc_match (ma_all (K := K) F br) w e b params h = bind (nz (f (wc_dict w) (wc_scale w) params)) (fun out => Ok (mkWC e b (wc_scale w) (dict2values out) [] h)).
Proof.
  intros N G. unfold wc_match. rewrite (ma_get _ _ _ _ G). destruct (keqb_spec e (wc_eft w)) as [->|]; [destruct (keqb_spec b (wc_basis w)) as [->|]; [congruence|]|];
  cbn [andb]; apply nz_mk.
Qed.
Lemma translate_get F (w : WC K) b params secs h f : b <> wc_basis w -> dget (translators (P := P) F) ((wc_eft w, wc_basis w), b) = Some f ->
  wc_translate (tr_all (K := K) F) w b params secs h = bind (nz (f (wc_dict w) (wc_scale w) params secs)) (fun out => Ok (mkWC (wc_eft w) b (wc_scale w) (dict2values out) [] h)).
Proof.
  intros N G. unfold wc_translate. rewrite (tr_get _ _ _ G). destruct (keqb_spec b (wc_basis w)); [congruence|]. apply nz_mk.
Qed.

(* matching directly to flavio, EOS or Bern = matching to JMS and translating *)
Definition from_JMS (F : functions K P) (b : string) : option (tfun K P) :=
  if String.eqb b "flavio" then Some (f_JMS_to_flavio F) else if String.eqb b "EOS" then Some (f_JMS_to_EOS F)
  else if String.eqb b "Bern" then Some (f_JMS_to_Bern F) else None.
Theorem C48_match_then_translate (F : functions K P) (br : basis_reg K) (w w1 : WC K) b params h h1 (ok : cd -> Prop) g :
  wc_eft w = "SMEFT" -> wc_basis w = "Warsaw" \/ (wc_basis w = "Warsaw up" /\ b = "flavio") -> from_JMS F b = Some g ->
  (forall C sc p C', f_match_all F C sc p = Ok C' -> ok C') ->
  blind ok (fun C (x : K * option P) => g C (fst x) (snd x) None) ->
  wc_match (ma_all F br) w "WET" "JMS" params h1 = Ok w1 ->
  wc_match (ma_all F br) w "WET" b params h = wc_translate (tr_all F) w1 b params None h.
Proof.
  intros Ew Bw G OK BL E1.
  assert (Hb : b = "flavio" \/ b = "EOS" \/ b = "Bern").
  { unfold from_JMS in G. destruct (String.eqb_spec b "flavio"); [now left|]. destruct (String.eqb_spec b "EOS"); [now right; left|].
    destruct (String.eqb_spec b "Bern"); [now right; right|discriminate]. }
  assert (NW : forall x, ("WET", x) <> (wc_eft w, wc_basis w)) by (intros x E; rewrite Ew in E; discriminate).
  assert (Q : forall r : res cd, (forall C, r = Ok C -> ok C) -> w1 = w1 ->
     bind (nz r) (fun out => Ok (mkWC "WET" "JMS" (wc_scale w) (dict2values out) [] h1)) = Ok w1 ->
     bind (nz (bind r (fun C => g C (wc_scale w) params None))) (fun out => Ok (mkWC "WET" b (wc_scale w) (dict2values out) [] h))
     = bind (nz (g (wc_dict w1) (wc_scale w1) params None)) (fun out => Ok (mkWC "WET" b (wc_scale w1) (dict2values out) [] h))).
  { intros r Rok _ E. destruct r as [C|e]; [|discriminate]. cbn in E. injection E as <-. rewrite wc_dict_mk. cbn [wc_scale bind].
    pose proof (BL C (wc_scale w, params) (Rok C eq_refl)) as B. cbn [fst snd] in B. rewrite B. reflexivity. }
  assert (T : wc_translate (tr_all F) w1 b params None h
     = bind (nz (g (wc_dict w1) (wc_scale w1) params None)) (fun out => Ok (mkWC "WET" b (wc_scale w1) (dict2values out) [] h))).
  { assert (X : wc_eft w1 = "WET" /\ wc_basis w1 = "JMS").
    { unfold wc_match in E1. rewrite Ew in E1. cbn [keqb EqKey_string String.eqb Ascii.eqb Bool.eqb andb] in E1.
      destruct (reg_get _ _) in E1; [|discriminate]. unfold matcher_match in E1. destruct (a _ _ _); [|discriminate]. injection E1 as <-. split; reflexivity. }
    destruct X as [X1 X2]. rewrite <- X1. apply translate_get; [rewrite X2; destruct Hb as [->|[->| ->]]; discriminate|].
    rewrite X1, X2. destruct Hb as [->|[->| ->]]; injection G as <-; reflexivity. }
  rewrite T. destruct Bw as [Bw|[Bw ->]].
  - rewrite (match_get F br w "WET" "JMS" params h1 (fun C sc p => bind (f_warsaw_to_up F C p None) (fun C' => f_match_all F C' sc p))) in E1 by (auto; rewrite Ew, Bw; reflexivity).
    rewrite (match_get F br w "WET" b params h (fun C sc p => bind (f_warsaw_to_up F C p None) (fun C' => bind (f_match_all F C' sc p) (fun C'' => g C'' sc p None))));
      [|auto|rewrite Ew, Bw; destruct Hb as [->|[->| ->]]; injection G as <-; reflexivity].
    specialize (Q (bind (f_warsaw_to_up F (wc_dict w) params None) (fun C' => f_match_all F C' (wc_scale w) params))).
    rewrite <- Q; auto.
    + destruct (f_warsaw_to_up F (wc_dict w) params None); reflexivity.
    + intros C. destruct (f_warsaw_to_up F (wc_dict w) params None); [apply OK|discriminate].
  - rewrite (match_get F br w "WET" "JMS" params h1 (f_match_all F)) in E1 by (auto; rewrite Ew, Bw; reflexivity).
    rewrite (match_get F br w "WET" "flavio" params h (fun C sc p => bind (f_match_all F C sc p) (fun C' => g C' sc p None)));
      [|auto|rewrite Ew, Bw; injection G as <-; reflexivity].
    rewrite <- (Q (f_match_all F (wc_dict w) (wc_scale w) params)); auto. intros C. apply OK.
Qed.
(* matching from Warsaw = translating to Warsaw up and matching from there *)
Theorem C48_translate_then_match (F : functions K P) (br : basis_reg K) (w w1 : WC K) b params h h1 (ok : cd -> Prop) :
  wc_eft w = "SMEFT" -> wc_basis w = "Warsaw" -> b = "JMS" \/ b = "flavio" ->
  (forall C p C', f_warsaw_to_up F C p None = Ok C' -> ok C') ->
  (forall C (x : K * option P), ok C -> f_match_all F (dfilter nonzero C) (fst x) (snd x) = f_match_all F C (fst x) (snd x)) ->
  wc_translate (tr_all F) w "Warsaw up" params None h1 = Ok w1 ->
  wc_match (ma_all F br) w "WET" b params h = wc_match (ma_all F br) w1 "WET" b params h.
Proof.
  intros Ew Bw Hb OK BL E1.
  rewrite (translate_get F w "Warsaw up" params None h1 (noscale (f_warsaw_to_up F))) in E1 by (rewrite ?Ew, ?Bw; first [discriminate|reflexivity]).
  unfold noscale in E1. destruct (f_warsaw_to_up F (wc_dict w) params None) as [C|e] eqn:EC; [|discriminate]. cbn in E1. injection E1 as <-.
  assert (NW : forall x, ("WET", x) <> (wc_eft w, wc_basis w)) by (intros x E; rewrite Ew in E; discriminate).
  pose proof (BL C (wc_scale w, params) (OK _ _ _ EC)) as B. cbn [fst snd] in B.
  destruct Hb as [->| ->].
  - rewrite (match_get F br w "WET" "JMS" params h (fun C sc p => bind (f_warsaw_to_up F C p None) (fun C' => f_match_all F C' sc p))) by (auto; rewrite Ew, Bw; reflexivity).
    rewrite (match_get F br _ "WET" "JMS" params h (f_match_all F)) by (cbn [wc_eft wc_basis]; rewrite ?Ew; first [discriminate|reflexivity]).
    rewrite EC, wc_dict_mk. cbn [bind wc_scale]. rewrite B. reflexivity.
  - rewrite (match_get F br w "WET" "flavio" params h (fun C sc p => bind (f_warsaw_to_up F C p None) (fun C' => bind (f_match_all F C' sc p) (fun C'' => f_JMS_to_flavio F C'' sc p None)))) by (auto; rewrite Ew, Bw; reflexivity).
    rewrite (match_get F br _ "WET" "flavio" params h (fun C sc p => bind (f_match_all F C sc p) (fun C' => f_JMS_to_flavio F C' sc p None))) by (cbn [wc_eft wc_basis]; rewrite ?Ew; first [discriminate|reflexivity]).
    rewrite EC, wc_dict_mk. cbn [bind wc_scale]. rewrite B. reflexivity.
Qed.
(* the composite translators Higgs-Warsaw up -> Warsaw, Warsaw -> Higgs-Warsaw up, FlavorKit -> flavio *)
Definition composites : list (string * string * string * string) :=
  [("SMEFT", "Higgs-Warsaw up", "Warsaw up", "Warsaw"); ("SMEFT", "Warsaw", "Warsaw up", "Higgs-Warsaw up"); ("WET", "FlavorKit", "JMS", "flavio")].
Theorem C48_composite_translators (F : functions K P) (w w1 : WC K) mid b params secs h h1 (ok : cd -> Prop) f1 f2 :
  In (wc_eft w, wc_basis w, mid, b) composites ->
  reg_get (tr_all F) ((wc_eft w, wc_basis w), mid) = Ok f1 -> reg_get (tr_all F) ((wc_eft w, mid), b) = Ok f2 ->
  (forall C sc C', f1 C sc params secs = Ok C' -> ok C') ->
  blind ok (fun C (sc : K) => f2 C sc params secs) ->
  wc_translate (tr_all F) w mid params secs h1 = Ok w1 ->
  wc_translate (tr_all F) w b params secs h = wc_translate (tr_all F) w1 b params secs h.
Proof.
  intros I G1 G2 OK BL E1. unfold wc_translate in E1. rewrite G1 in E1.
  assert (Nm : keqb mid (wc_basis w) = false /\ keqb b (wc_basis w) = false /\ keqb b mid = false /\
     reg_get (tr_all F) ((wc_eft w, wc_basis w), b) = Ok (fun C sc p s => bind (f1 C sc p s) (fun C' => f2 C' sc p s))).
  { cbn [composites In] in I. repeat (destruct I as [[= E2 E3 <- <-]|I]; [rewrite <- E2, <- E3 in *; injection G1 as <-; injection G2 as <-; repeat split; reflexivity|]). destruct I. }
  destruct Nm as (N1 & N2 & N3 & G3). rewrite N1 in E1. unfold translator_translate in E1.
  destruct (f1 (wc_dict w) (wc_scale w) params secs) as [C|e] eqn:EC; [|discriminate]. cbn [bind] in E1. injection E1 as <-.
  unfold wc_translate. rewrite N2, G3. cbn [wc_eft wc_basis]. rewrite N3, G2. unfold translator_translate. rewrite wc_dict_mk. cbn [wc_scale]. rewrite EC. cbn [bind].
  rewrite !nz_mk. rewrite (BL C (wc_scale w)) by (eapply OK; exact EC). reflexivity.
Qed.
(* which function carries out a translation, and in which theories *)
Definition five_flavours := ["WET"; "WET-4"; "WET-3"].
Definition elementary (F : functions K P) : list (list string * string * string * tfun K P) :=
  [(["SMEFT"], "Higgs-Warsaw up", "Warsaw up", fun C _ p s => f_higgs_to_up F C p s); (["SMEFT"], "Warsaw up", "Higgs-Warsaw up", fun C _ p s => f_up_to_higgs F C p s);
   (["SMEFT"], "Warsaw", "Warsaw up", fun C _ p s => f_warsaw_to_up F C p s); (["SMEFT"], "Warsaw up", "Warsaw", fun C _ p s => f_up_to_warsaw F C p s);
   (["SMEFT"], "Warsaw", "Warsaw mass", fun C _ p s => f_warsaw_to_mass F C p s);
   (five_flavours, "flavio", "JMS", f_flavio_to_JMS F); (five_flavours, "JMS", "flavio", f_JMS_to_flavio F);
   (five_flavours, "Bern", "flavio", f_Bern_to_flavio F); (five_flavours, "flavio", "Bern", f_flavio_to_Bern F);
   (five_flavours, "Bern", "JMS", f_Bern_to_JMS F); (five_flavours, "JMS", "Bern", f_JMS_to_Bern F);
   (["WET"], "JMS", "EOS", f_JMS_to_EOS F); (["WET"], "JMS", "formflavor", f_JMS_to_FormFlavor F);
   (["WET"], "FlavorKit", "JMS", f_FlavorKit_to_JMS F); (["WET"], "JMS", "FlavorKit", f_JMS_to_FlavorKit F)].
Theorem C48_elementary_translators (F : functions K P) (w : WC K) efts b f params secs h :
  In (efts, wc_basis w, b, f) (elementary F) -> In (wc_eft w) efts ->
  wc_translate (tr_all F) w b params secs h =
    match f (wc_dict w) (wc_scale w) params secs with
    | Ok out => Ok (mkWC (wc_eft w) b (wc_scale w) (dict2values (dfilter nonzero out)) [] h)
    | Err e => Err e
    end.
Proof.
  intros I E.
  assert (X : b <> wc_basis w /\ dget (translators (P := P) F) ((wc_eft w, wc_basis w), b) = Some f).
  { cbn [elementary In] in I. repeat (destruct I as [[= <- <- <- <-]|I]; [cbn [five_flavours In] in E;
      repeat (destruct E as [<-|E]; [split; [discriminate|reflexivity]|]); destruct E|]). destruct I. }
  destruct X as [N G]. rewrite (translate_get F w b params secs h f N G). now destruct (f _ _ _ _).
Qed.
(* no other translation exists *)
Theorem C48_no_other_translators (F : functions K P) (w : WC K) b params secs h :
  b <> wc_basis w -> (forall efts f, In (efts, wc_basis w, b, f) (elementary F) -> ~ In (wc_eft w) efts) ->
  (forall mid, ~ In (wc_eft w, wc_basis w, mid, b) composites) ->
  wc_translate (tr_all F) w b params secs h = Err ValueError.
Proof.
  intros N NE NC. unfold wc_translate. destruct (keqb_spec b (wc_basis w)) as [|_]; [congruence|].
  destruct (reg_get _ _) as [f|e] eqn:G; [exfalso|reflexivity].
  assert (S : tr_all F = Some (translators F)) by reflexivity.
  rewrite S in G. cbn [reg_get] in G. destruct (dget _ _) as [g|] eqn:D in G; [|discriminate]. apply dget_Some_key in D.
  unfold dkeys, translators in D. cbn [map fst In] in D. revert NE NC D. generalize (wc_eft w) (wc_basis w). clear. intros e c NE NC D.
  repeat (destruct D as [[= <- <- <-]|D]; [first
    [ exfalso; eapply NC; cbn; solve [repeat first [left; reflexivity|right]]
    | eapply NE; [cbn [elementary In]; solve [repeat first [left; reflexivity|right]]|cbn; tauto]]|]).
  destruct D.
Qed.
End RegP.

Print Assumptions C37_threshold.
Print Assumptions C37_two_thresholds.
Print Assumptions C37_linear.
Print Assumptions C37_no_basis.
Print Assumptions C37_nothing_else.
Print Assumptions C48_match_then_translate.
Print Assumptions C48_translate_then_match.
Print Assumptions C48_composite_translators.
Print Assumptions C48_elementary_translators.
Print Assumptions C48_no_other_translators.
(* cases that meet the hypotheses *)
Definition ex_basis (eft basis : string) (keys : list string) : Basis QI :=
  mkBasis eft basis (Some [("sb", map (fun k => (k, JNull)) keys)]) None [].
Definition ex_br : basis_reg QI :=
  Some [(("WET-4", "flavio"), ex_basis "WET-4" "flavio" ["CVLL_cu"; "CVLL_sd"]); (("WET-3", "flavio"), ex_basis "WET-3" "flavio" ["CVLL_sd"])].
Definition ex_w : WC QI := mkWC "WET" "flavio" k1 [("CVLL_bs", VNum k1); ("CVLL_cu", VNum k1); ("CVLL_sd", VReIm None (Some k1))] [] 0.
Example C37_case : In (wc_eft ex_w, wc_basis ex_w, "WET-4") thresholds /\ In ("WET-4", wc_basis ex_w, "WET-3") thresholds /\
  basis_keys ex_br "WET-4" (wc_basis ex_w) ["CVLL_cu"; "CVLL_sd"] /\ basis_keys ex_br "WET-3" (wc_basis ex_w) ["CVLL_sd"] /\ proper ex_w.
Proof.
  repeat split; try (cbn; tauto); try (eexists; split; reflexivity). unfold proper. apply knodup_NoDup. reflexivity.
Qed.
(* functions that rename; they do not see zeros *)
Definition ex_copy (pre : string) (C : dict string QI) : res (dict string QI) := Ok (map (fun kv => (append pre (fst kv), snd kv)) C).
Definition ex_t (pre : string) : tfun QI unit := fun C _ _ _ => ex_copy pre C.
Definition ex_F : functions QI unit :=
  {| f_higgs_to_up := fun C _ _ => ex_copy "a" C; f_up_to_higgs := fun C _ _ => ex_copy "b" C; f_up_to_warsaw := fun C _ _ => ex_copy "c" C;
     f_warsaw_to_up := fun C _ _ => ex_copy "d" C; f_warsaw_to_mass := fun C _ _ => ex_copy "e" C;
     f_flavio_to_JMS := ex_t "f"; f_JMS_to_flavio := ex_t "g"; f_Bern_to_flavio := ex_t "h"; f_flavio_to_Bern := ex_t "i"; f_JMS_to_EOS := ex_t "j";
     f_JMS_to_Bern := ex_t "k"; f_Bern_to_JMS := ex_t "l"; f_JMS_to_FormFlavor := ex_t "m"; f_FlavorKit_to_JMS := ex_t "n"; f_JMS_to_FlavorKit := ex_t "o";
     f_match_all := fun C _ _ => Ok (dfilter nonzero C) |}.
Lemma ex_nz (l : dict string QI) pre : dfilter nonzero (map (fun kv => (append pre (fst kv), snd kv)) l) = map (fun kv => (append pre (fst kv), snd kv)) (dfilter nonzero l).
Proof.
  induction l as [|[k v] l IH]; [reflexivity|]. unfold dfilter in *. cbn [map filter fst snd]. change (nonzero (append pre k) v) with (nonzero k v).
  destruct (nonzero k v); cbn [map fst snd]; now rewrite IH.
Qed.
Lemma ex_nz2 (l : dict string QI) : dfilter nonzero (dfilter nonzero l) = dfilter nonzero l.
Proof.
  induction l as [|[k v] l IH]; [reflexivity|]. unfold dfilter in *. cbn [filter fst snd].
  destruct (nonzero k v) eqn:E; [|exact IH]. cbn [filter fst snd]. rewrite E. now rewrite IH.
Qed.
Definition ex_ws : WC QI := mkWC "SMEFT" "Warsaw" k1 [("G", VNum k1); ("phi", VNum k0)] [] 0.
Example C48_case :
  blind (K := QI) (fun _ => True) (fun C (x : QI * option unit) => f_JMS_to_flavio ex_F C (fst x) (snd x) None) /\
  (forall C (x : QI * option unit), f_match_all ex_F (dfilter nonzero C) (fst x) (snd x) = f_match_all ex_F C (fst x) (snd x)) /\
  (exists w1, wc_match (ma_all ex_F ex_br) ex_ws "WET" "JMS" None 1 = Ok w1) /\
  (exists w1, wc_translate (tr_all ex_F) ex_ws "Warsaw up" None None 1 = Ok w1).
Proof.
  split; [|split; [|split]].
  - intros C x _. cbn [ex_F f_JMS_to_flavio]. unfold ex_t, ex_copy, nz. cbn [rmap]. now rewrite !ex_nz, ex_nz2.
  - intros C x. cbn [ex_F f_match_all]. now rewrite ex_nz2.
  - eexists. reflexivity.
  - eexists. reflexivity.
Qed.
