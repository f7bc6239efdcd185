(* Property C67: the command line tools (wilson/wcxf/cli.py). *)
From Coq Require Import List Bool String Ascii ZArith QArith.
From Verif Require Import PyBase Num WcxfModel WcxfProofs CliModel CliSpec CliProofs.
Import ListNotations.
Local Open Scope string_scope.

(* The formats are json and yaml, in small or capital letters *)
Theorem C67_formats :
  forall fmt, (lower fmt = "json" <-> spelled "json" "JSON" fmt) /\
              (lower fmt = "yaml" <-> spelled "yaml" "YAML" fmt).
Proof.
  assert (H : forall y a b, In (a, b) [("j", "J"); ("s", "S"); ("o", "O"); ("n", "N"); ("y", "Y");
                                       ("a", "A"); ("m", "M"); ("l", "L")]%char ->
              (lower_char y = a <-> y = a \/ y = b)).
  { intros y a b Hin.
    assert (B : Ascii.eqb (lower_char y) a = (Ascii.eqb y a || Ascii.eqb y b)%bool).
    { simpl in Hin. repeat (destruct Hin as [Hin|Hin]; [injection Hin as <- <-;
        destruct y as [[] [] [] [] [] [] [] []]; vm_compute; reflexivity|]). contradiction. }
    rewrite <- (Ascii.eqb_eq (lower_char y) a), B, orb_true_iff, !Ascii.eqb_eq. reflexivity. }
  assert (W : forall s c, List.length (list_ascii_of_string s) = List.length (list_ascii_of_string c) ->
     (forall a b, In (a, b) (combine (list_ascii_of_string s) (list_ascii_of_string c)) ->
        forall y, lower_char y = a <-> y = a \/ y = b) ->
     forall fmt, lower fmt = s <-> spelled s c fmt).
  { induction s as [|a s IH]; intros [|b c] Hl Hs [|x f]; simpl in Hl; try discriminate;
      simpl; try (split; [discriminate|contradiction]); [tauto|].
    rewrite <- (IH c) by (try (injection Hl; auto); intros; apply Hs; right; auto).
    rewrite <- (Hs a b) by (left; reflexivity).
    split; [intros [= A B]; auto|intros [A B]; congruence]. }
  intros fmt. split; apply W; try reflexivity; intros a b Hin y; apply H; simpl in *; tauto.
Qed.
Print Assumptions C67_formats.

(* Translating: if the input file holds the coefficients x, and x.translate gives
   x', the command exits with 0 and delivers to the output exactly the JSON or
   YAML text of x' - nothing else changes. *)
Theorem C67_translate :
  forall (K : StarField) (P : Type) (E : env K P) (w : world) basis i o fmt h r x x',
    can_open w i = true -> distinct i o ->
    lower fmt = "json" \/ lower fmt = "yaml" ->
    load_raw E (read w i) = Ok r -> wc_of_raw E h r = Ok x ->
    basis <> wc_basis x -> wc_translate (e_tr E) x basis None None h = Ok x' ->
    exists w' d s,
      wcxf_cli E w (Translate basis i o fmt) h = (w', Exited 0) /\
      wc_doc x' d /\ in_format (e_text E) fmt d s /\ delivered w w' o s.
Proof.
  intros K P E w basis i o fmt h r x x' Ho Hd Hf Hl Hx Hb Ht.
  assert (Hr : r_basis r = wc_basis x /\ r_eft r = wc_eft x).
  { unfold wc_of_raw in Hx. destruct (r_values r); try discriminate.
    destruct (values_of E o0); [|discriminate]. simpl in Hx. injection Hx as <-. auto. }
  destruct Hr as [Hr1 Hr2].
  destruct (dump_text_ok E fmt (raw_of_wc x') Hf) as (s & Hs & Hin).
  rewrite cli_work; [|left; do 4 eexists; reflexivity|exact Ho|exact Hd]. cbn [work input_of output_of]. rewrite Hl. cbn [bind].
  unfold raw_translate. rewrite Hr1, Hr2.
  destruct (keqb basis (wc_basis x)) eqn:Ek; [apply keqb_true in Ek; contradiction|].
  assert (Hg : exists f, reg_get (e_tr E) ((wc_eft x, wc_basis x), basis) = Ok f).
  { unfold wc_translate in Ht. rewrite Ek in Ht. destruct (reg_get (e_tr E) _); [eauto|discriminate]. }
  destruct Hg as [f Hg]. rewrite Hg, Hx. cbn [bind]. rewrite Ht. cbn [rmap bind]. rewrite Hs.
  do 3 eexists. split; [reflexivity|]. split; [eapply translated_doc; eauto|].
  split; [exact Hin|]. apply delivered_write.
Qed.
Print Assumptions C67_translate.

(* the same for matching *)
Theorem C67_match :
  forall (K : StarField) (P : Type) (E : env K P) (w : world) eft basis i o fmt h r x x',
    can_open w i = true -> distinct i o ->
    lower fmt = "json" \/ lower fmt = "yaml" ->
    load_raw E (read w i) = Ok r -> wc_of_raw E h r = Ok x ->
    (eft, basis) <> (wc_eft x, wc_basis x) -> wc_match (e_ma E) x eft basis None h = Ok x' ->
    exists w' d s,
      wcxf_cli E w (Match eft basis i o fmt) h = (w', Exited 0) /\
      wc_doc x' d /\ in_format (e_text E) fmt d s /\ delivered w w' o s.
Proof.
  intros K P E w eft basis i o fmt h r x x' Ho Hd Hf Hl Hx Hb Ht.
  assert (Hr : r_basis r = wc_basis x /\ r_eft r = wc_eft x).
  { unfold wc_of_raw in Hx. destruct (r_values r); try discriminate.
    destruct (values_of E o0); [|discriminate]. simpl in Hx. injection Hx as <-. auto. }
  destruct Hr as [Hr1 Hr2].
  destruct (dump_text_ok E fmt (raw_of_wc x') Hf) as (s & Hs & Hin).
  rewrite cli_work; [|right; do 5 eexists; reflexivity|exact Ho|exact Hd]. cbn [work input_of output_of]. rewrite Hl. cbn [bind].
  unfold raw_match. rewrite Hr1, Hr2.
  destruct (keqb eft (wc_eft x) && keqb basis (wc_basis x)) eqn:Ek.
  { apply andb_true_iff in Ek as [A B]. apply keqb_true in A. apply keqb_true in B. congruence. }
  assert (Hg : exists f, reg_get (e_ma E) (((wc_eft x, wc_basis x), eft), basis) = Ok f).
  { unfold wc_match in Ht. rewrite Ek in Ht. destruct (reg_get (e_ma E) _); [eauto|discriminate]. }
  destruct Hg as [f Hg]. rewrite Hg, Hx. cbn [bind]. rewrite Ht. cbn [rmap bind]. rewrite Hs.
  do 3 eexists. split; [reflexivity|]. split; [eapply matched_doc; eauto|].
  split; [exact Hin|]. apply delivered_write.
Qed.
Print Assumptions C67_match.

(* Reading the delivered text back with WC.load gives the translated object, if
   the text library reads back the document it wrote. *)
Theorem C67_read_back :
  forall (K : StarField) (P : Type) (E : env K P) (x : WC K) d fmt s h,
    wc_doc x d -> in_format (e_text E) fmt d s -> load_doc E s = Ok d -> wc_extra x = [] ->
    exists r, load_raw E s = Ok r /\
      wc_of_raw E h r = Ok (mkWC (wc_eft x) (wc_basis x) (wc_scale x) (wc_values x) [] h).
Proof.
  intros K P E x d fmt s h (vals & -> & Hv) _ Hl Hx. unfold load_raw. rewrite Hl. cbn [bind].
  eexists. split; [reflexivity|]. unfold wc_of_raw. cbn [r_values r_eft r_basis r_scale r_extra].
  assert (Hvs : values_of E vals = Ok (wc_values x)).
  { clear Hl Hx. revert Hv. generalize (wc_values x). intros l0 Hv.
    induction Hv as [|[k v] [k' d] l m [A B] Hm IH]; [reflexivity|].
    simpl in A, B. subst k'. simpl. rewrite IH.
    destruct v as [y|[re|] [im|]]; simpl in B; try contradiction; subst d; reflexivity. }
  rewrite Hvs. reflexivity.
Qed.
Print Assumptions C67_read_back.

(* Translating to the basis the coefficients are in: the file is written again,
   without the attributes whose name begins with an underscore *)
Theorem C67_translate_same :
  forall (K : StarField) (P : Type) (E : env K P) (w : world) i o fmt h r,
    can_open w i = true -> distinct i o ->
    lower fmt = "json" \/ lower fmt = "yaml" ->
    load_raw E (read w i) = Ok r ->
    exists w' s,
      wcxf_cli E w (Translate (r_basis r) i o fmt) h = (w', Exited 0) /\
      in_format (e_text E) fmt
        (JObj ([("eft", JStr (r_eft r)); ("basis", JStr (r_basis r)); ("scale", JNum (r_scale r));
                ("values", r_values r)] ++
               filter (fun kv => negb (private (fst kv))) (r_extra r))) s /\
      delivered w w' o s.
Proof.
  intros K P E w i o fmt h r Ho Hd Hf Hl.
  destruct (dump_text_ok E fmt r Hf) as (s & Hs & Hin).
  rewrite cli_work; [|left; do 4 eexists; reflexivity|exact Ho|exact Hd].
  cbn [work input_of output_of]. rewrite Hl. cbn [bind].
  unfold raw_translate. rewrite keqb_refl. cbn [bind]. rewrite Hs.
  do 2 eexists. split; [reflexivity|]. split; [exact Hin|]. apply delivered_write.
Qed.
Print Assumptions C67_translate_same.

(* When the work of `wcxf translate` fails (unreadable file, no such translator,
   unknown format), with anything but an AttributeError, the exit status is 1
   and no text is delivered. *)
Theorem C67_translate_failure :
  forall (K : StarField) (P : Type) (E : env K P) (w : world) basis i o fmt h e,
    can_open w i = true -> distinct i o -> e <> AttributeError ->
    bind (load_raw E (read w i)) (fun r => bind (raw_translate E r basis h) (dump_text E fmt)) = Err e ->
    exists w', wcxf_cli E w (Translate basis i o fmt) h = (w', Raised e) /\
      status (Raised e) = 1%nat /\ delivered w w' o "".
Proof.
  intros K P E w basis i o fmt h e Ho Hd He Hw.
  rewrite cli_work; [|left; do 4 eexists; reflexivity|exact Ho|exact Hd]. cbn [work input_of output_of]. rewrite Hw.
  exists (open_out w o). split; [destruct e; try reflexivity; contradiction|].
  split; [reflexivity|]. apply delivered_open.
Qed.
Print Assumptions C67_translate_failure.
Theorem C67_no_translator :
  forall (K : StarField) (P : Type) (E : env K P) (w : world) basis i o fmt h r,
    can_open w i = true -> distinct i o ->
    load_raw E (read w i) = Ok r -> basis <> r_basis r ->
    (forall f, reg_get (e_tr E) ((r_eft r, r_basis r), basis) <> Ok f) ->
    exists w', wcxf_cli E w (Translate basis i o fmt) h = (w', Raised ValueError) /\
      delivered w w' o "".
Proof.
  intros K P E w basis i o fmt h r Ho Hd Hl Hb Hn.
  destruct (C67_translate_failure K P E w basis i o fmt h ValueError Ho Hd) as (w' & A & _ & B);
    [discriminate| |eauto].
  rewrite Hl. cbn [bind]. unfold raw_translate.
  destruct (keqb basis (r_basis r)) eqn:Ek; [apply keqb_true in Ek; contradiction|].
  destruct (reg_get (e_tr E) _) as [f|] eqn:Eg; [exfalso; eapply Hn; eauto|reflexivity].
Qed.
Print Assumptions C67_no_translator.

Theorem C67_match_failure :
  forall (K : StarField) (P : Type) (E : env K P) (w : world) eft basis i o fmt h e,
    can_open w i = true -> distinct i o -> e <> AttributeError ->
    bind (load_raw E (read w i)) (fun r => bind (raw_match E r eft basis h) (dump_text E fmt)) = Err e ->
    exists w', wcxf_cli E w (Match eft basis i o fmt) h = (w', Raised e) /\
      status (Raised e) = 1%nat /\ delivered w w' o "".
Proof.
  intros K P E w eft basis i o fmt h e Ho Hd He Hw.
  rewrite cli_work; [|right; do 5 eexists; reflexivity|exact Ho|exact Hd].
  cbn [work input_of output_of]. rewrite Hw.
  exists (open_out w o). split; [destruct e; try reflexivity; contradiction|].
  split; [reflexivity|]. apply delivered_open.
Qed.
Print Assumptions C67_match_failure.
Theorem C67_no_matcher :
  forall (K : StarField) (P : Type) (E : env K P) (w : world) eft basis i o fmt h r,
    can_open w i = true -> distinct i o ->
    load_raw E (read w i) = Ok r -> (eft, basis) <> (r_eft r, r_basis r) ->
    (forall f, reg_get (e_ma E) (((r_eft r, r_basis r), eft), basis) <> Ok f) ->
    exists w', wcxf_cli E w (Match eft basis i o fmt) h = (w', Raised ValueError) /\
      delivered w w' o "".
Proof.
  intros K P E w eft basis i o fmt h r Ho Hd Hl Hb Hn.
  destruct (C67_match_failure K P E w eft basis i o fmt h ValueError Ho Hd) as (w' & A & _ & B);
    [discriminate| |eauto].
  rewrite Hl. cbn [bind]. unfold raw_match.
  destruct (keqb eft (r_eft r) && keqb basis (r_basis r)) eqn:Ek.
  { apply andb_true_iff in Ek as [X Y]. apply keqb_true in X. apply keqb_true in Y. congruence. }
  destruct (reg_get (e_ma E) _) as [f|] eqn:Eg; [exfalso; eapply Hn; eauto|reflexivity].
Qed.
Print Assumptions C67_no_matcher.
(* A missing input file: status 2, nothing happens, the output file included *)
Theorem C67_missing_input :
  forall (K : StarField) (P : Type) (E : env K P) (w : world) c h p,
    input_of c = InFile p -> content w p = None -> wcxf_cli E w c h = (w, Exited 2).
Proof.
  intros K P E w c h p Hi Hc. unfold wcxf_cli. rewrite Hi. simpl.
  rewrite dmem_dget. unfold content in Hc. rewrite Hc. reflexivity.
Qed.
Print Assumptions C67_missing_input.

(* Converting between the two formats keeps the document: what is delivered is
   the text, in the other format, of the document read. *)
Theorem C67_convert :
  forall (K : StarField) (P : Type) (E : env K P) (w : world) fmt i o h d,
    can_open w i = true -> distinct i o ->
    (lower fmt = "json" /\ yaml_load (e_text E) (read w i) = Some d) \/
    (lower fmt = "yaml" /\ json_loads (e_text E) (read w i) = Some d) ->
    exists w' s, wcxf_cli E w (Convert fmt i o) h = (w', Exited 0) /\
      in_format (e_text E) fmt d s /\ delivered w w' o s.
Proof.
  intros K P E w fmt i o h d Ho Hd H. unfold wcxf_cli. cbn [input_of output_of call]. rewrite Ho.
  unfold convert, convert_json, convert_yaml, in_format. rewrite (read_open w i o Hd).
  destruct H as [[Hf Hl]|[Hf Hl]]; rewrite Hf; cbn [String.eqb Ascii.eqb Bool.eqb];
    rewrite ?(read_open w i o Hd), Hl; do 2 eexists;
    (split; [reflexivity|split; [eauto|apply delivered_write]]).
Qed.
Print Assumptions C67_convert.
(* YAML -> JSON -> YAML through two files gives back the document, if the
   libraries read back what they wrote *)
Theorem C67_convert_roundtrip :
  forall (K : StarField) (P : Type) (E : env K P) (w : world) f1 f2 f3 h d,
    f1 <> f2 -> f2 <> f3 -> f1 <> f3 ->
    content w f1 <> None -> yaml_load (e_text E) (read w (InFile f1)) = Some d ->
    json_loads (e_text E) (json_text (e_text E) d) = Some d ->
    yaml_load (e_text E) (yaml_text (e_text E) d) = Some d ->
    exists w1 w2, wcxf_cli E w (Convert "json" (InFile f1) (OutFile f2)) h = (w1, Exited 0) /\
      wcxf_cli E w1 (Convert "yaml" (InFile f2) (OutFile f3)) h = (w2, Exited 0) /\
      yaml_load (e_text E) (read w2 (InFile f3)) = Some d /\
      content w2 f1 = content w f1.
Proof.
  intros K P E w f1 f2 f3 h d N12 N23 N13 Hc Hy Hj Hy2.
  assert (Ho : can_open w (InFile f1) = true).
  { simpl. rewrite dmem_dget. unfold content in Hc. destruct (dget (w_files w) f1); congruence. }
  destruct (C67_convert K P E w "json" (InFile f1) (OutFile f2) h d Ho) as (w1 & s1 & R1 & F1 & D1).
  { intros p [= ->]; congruence. }
  { left; auto. }
  destruct F1 as [[_ ->]|[F1 _]]; [|discriminate F1].
  destruct D1 as (_ & C1 & _ & O1).
  destruct (C67_convert K P E w1 "yaml" (InFile f2) (OutFile f3) h d) as (w2 & s2 & R2 & F2 & D2).
  { simpl. rewrite dmem_dget. unfold content in C1. rewrite C1. reflexivity. }
  { intros p [= ->]; congruence. }
  { right; split; [reflexivity|]. simpl. unfold dgetd. unfold content in C1. rewrite C1. exact Hj. }
  destruct F2 as [[F2 _]|[_ ->]]; [discriminate F2|].
  destruct D2 as (_ & C2 & _ & O2).
  exists w1, w2. repeat split; auto.
  - simpl. unfold dgetd. unfold content in C2. rewrite C2. exact Hy2.
  - rewrite O2, O1 by congruence. reflexivity.
Qed.
Print Assumptions C67_convert_roundtrip.

(* `wcxf validate` says "Validation successful." exactly for the valid files and
   never changes a file *)
Theorem C67_validate :
  forall (K : StarField) (P : Type) (E : env K P) (w : world) ty i h,
    can_open w i = true ->
    w_files (fst (wcxf_cli E w (Validate ty i) h)) = w_files w /\
    (valid_file E ty (read w i) ->
       exists w', wcxf_cli E w (Validate ty i) h = (w', Exited 0) /\
         w_stdout w' = w_stdout w ++ success_text) /\
    (~ valid_file E ty (read w i) ->
       w_stdout (fst (wcxf_cli E w (Validate ty i) h)) = w_stdout w \/
       w_stdout (fst (wcxf_cli E w (Validate ty i) h)) = w_stdout w ++ e_help E).
Proof.
  intros K P E w ty i h Ho. unfold wcxf_cli. cbn [input_of output_of call open_out]. rewrite Ho.
  destruct (validate_emit E w ty i) as [[Hv ->]|[Hv (r & -> & _ & Hr)]].
  - split; [reflexivity|]. split; [intros _; eexists; split; reflexivity|contradiction].
  - destruct Hr as [->|[e ->]].
    + split; [reflexivity|]. split; [contradiction|left; reflexivity].
    + destruct e; (split; [reflexivity|split; [contradiction|intros _; simpl; auto]]).
Qed.
Print Assumptions C67_validate.

(* A file of a known TYPE that is not valid makes the exit status 1, unless the
   reason is an AttributeError (then the help is printed) *)
Theorem C67_validate_status_partial :
  forall (K : StarField) (P : Type) (E : env K P) (w : world) ty i h,
    can_open w i = true -> ty = "eft" \/ ty = "basis" \/ ty = "wc" ->
    ~ valid_file E ty (read w i) ->
    exists w' r, wcxf_cli E w (Validate ty i) h = (w', r) /\
      ((status r = 1%nat /\ w' = w) \/
       (validate E w ty i = (w, Err AttributeError) /\ w_stdout w' = w_stdout w ++ e_help E)).
Proof.
  intros K P E w ty i h Ho Ht Hn. unfold wcxf_cli. cbn [input_of output_of call open_out]. rewrite Ho.
  destruct (validate_emit E w ty i) as [[Hv _]|[_ (r & Hr & H1 & H2)]]; [contradiction|].
  rewrite Hr. destruct H2 as [->|[e ->]].
  - exfalso. destruct H1 as [H1 _]. destruct (H1 eq_refl) as (A & B & C).
    destruct Ht as [-> | [-> | ->]]; contradiction.
  - destruct e; do 2 eexists; (split; [reflexivity|]); try (left; split; reflexivity).
    right. split; reflexivity.
Qed.
Print Assumptions C67_validate_status_partial.

(* No command of wcxf changes a file other than its output file *)
Theorem C67_only_output :
  forall (K : StarField) (P : Type) (E : env K P) (w : world) c h,
    only_output w (fst (wcxf_cli E w c h)) (output_of c).
Proof. intros; apply cli_frame. Qed.
Print Assumptions C67_only_output.

(* wcxf2eos: a run that exits with 0 read a file of coefficients that loads and
   validates, and delivered exactly the YAML text of their conversion, to the
   output or to EOSHOME/parameters/wcxf.yaml; --output and --eoshome together
   are refused. *)
Theorem C67_eos :
  forall (K : StarField) (P : Type) (E : env K P) conv (w w' : world) i o home,
    distinct i (match home with Some hm => OutFile (eos_file hm) | None => o end) ->
    eos E conv w i o home = (w', Exited 0) ->
    exists r d, load_raw E (read w i) = Ok r /\ valid_coeffs E r /\ conv r = Ok d /\
      match home with
      | None => o <> NoStream /\ delivered w w' o (yaml_text (e_text E) d)
      | Some hm => o = Stdout /\ e_isdir E (eos_dir hm) = true /\
                   delivered w w' (OutFile (eos_file hm)) (yaml_text (e_text E) d)
      end.
Proof.
  intros K P E conv w w' i o home Hd. setoid_rewrite <- raw_validate_ok. unfold eos.
  assert (Hrun : forall f, distinct i f -> eos_run E conv (open_out w f) i f = (w', Exited 0) ->
    exists r d, load_raw E (read w i) = Ok r /\ raw_validate E r = Ok tt /\ conv r = Ok d /\
      f <> NoStream /\ delivered w w' f (yaml_text (e_text E) d)).
  { intros f Hf. unfold eos_run. rewrite (read_open w i f Hf). unfold load_valid.
    destruct (load_raw E (read w i)) as [r|]; cbn [bind]; [|discriminate].
    destruct (raw_validate E r) as [[]|] eqn:Ev; cbn [rmap bind]; [|discriminate].
    destruct (conv r) as [d|] eqn:Ec; cbn [bind]; [|discriminate].
    intros H. exists r, d. do 3 (split; [auto|]).
    destruct f as [| |p]; [| discriminate |]; injection H as <-; (split; [discriminate|]).
    - exact (delivered_write w Stdout _).
    - exact (delivered_write w (OutFile p) _). }
  destruct (can_open w i); [|discriminate].
  destruct home as [hm|].
  - destruct o as [| |p]; try discriminate.
    destruct (e_isdir E (eos_dir hm)) eqn:Ed; [|discriminate].
    intros H. destruct (Hrun (OutFile (eos_file hm)) Hd H) as (r & d & A & B & C & _ & D).
    exists r, d. auto 8.
  - intros H. destruct (Hrun o Hd H) as (r & d & A & B & C & D & F).
    exists r, d. auto 8.
Qed.
Print Assumptions C67_eos.
Theorem C67_eos_exclusive :
  forall (K : StarField) (P : Type) (E : env K P) conv (w : world) i o hm,
    can_open w i = true -> o <> Stdout ->
    status (snd (eos E conv w i o (Some hm))) = 1%nat /\
    delivered w (fst (eos E conv w i o (Some hm))) o "".
Proof.
  intros K P E conv w i o hm Ho Hn. unfold eos. rewrite Ho.
  destruct o as [| |p]; [contradiction| |]; cbn [fst snd status];
    (split; [reflexivity|apply delivered_open]).
Qed.
Print Assumptions C67_eos_exclusive.

(* wcxf2smeftsim: the output file is touched only if the input loads, validates
   and is in the basis 'Warsaw mass' (or the user typed i or I at the warning);
   a run whose conversion succeeds then leaves exactly the card in it. *)
Theorem C67_smeftsim :
  forall (K : StarField) (P : Type) (E : env K P) conv (w : world) i out key q,
    content (fst (smeftsim E conv w i out key)) q <> content w q ->
    out = Some q /\ exists r, load_raw E (read w i) = Ok r /\ valid_coeffs E r /\
      (r_basis r = "Warsaw mass" \/ key = "i" \/ key = "I") /\
      content (fst (smeftsim E conv w i out key)) q =
        Some (match conv r with Ok s => s | Err _ => "" end).
Proof.
  intros K P E conv w i out key q. setoid_rewrite <- raw_validate_ok. unfold smeftsim.
  destruct (can_open w i); [|intros H; elim H; reflexivity].
  unfold load_valid.
  destruct (load_raw E (read w i)) as [r|]; cbn [bind]; [|intros H; elim H; reflexivity].
  destruct (raw_validate E r) as [[]|] eqn:Ev; cbn [rmap]; [|intros H; elim H; reflexivity].
  set (w1 := if negb (r_basis r =? "Warsaw mass") then write w Stdout warning_text else w).
  assert (Hw1 : forall p, content w1 p = content w p).
  { intros p. unfold w1. destruct (negb _); reflexivity. }
  destruct (negb (r_basis r =? "Warsaw mass") && negb (key =? "i") && negb (key =? "I")) eqn:Eb;
    [intros H; elim H; apply Hw1|].
  assert (Hk : r_basis r = "Warsaw mass" \/ key = "i" \/ key = "I").
  { destruct (String.eqb_spec (r_basis r) "Warsaw mass"); auto.
    destruct (String.eqb_spec key "i"); auto. destruct (String.eqb_spec key "I"); auto. discriminate. }
  destruct out as [p|]; [|intros H; elim H; apply Hw1].
  destruct (key_dec p q) as [->|N].
  - intros _. split; [reflexivity|]. exists r. do 3 (split; [auto|]).
    destruct (conv r) as [s|]; cbn [finish fst].
    + destruct (delivered_write w1 (OutFile q) s) as (_ & A & _). exact A.
    + apply content_open_same.
  - intros H. elim H. destruct (conv r) as [s|]; cbn [finish fst];
      rewrite ?content_write_other, ?content_open_other by congruence; apply Hw1.
Qed.
Print Assumptions C67_smeftsim.

(* Conversely these runs succeed: a valid set of coefficients that the converter
   accepts is converted *)
Theorem C67_eos_success :
  forall (K : StarField) (P : Type) (E : env K P) conv (w : world) i o home r d,
    distinct i (match home with Some hm => OutFile (eos_file hm) | None => o end) ->
    can_open w i = true -> load_raw E (read w i) = Ok r -> valid_coeffs E r -> conv r = Ok d ->
    match home with
    | None => o <> NoStream
    | Some hm => o = Stdout /\ e_isdir E (eos_dir hm) = true
    end ->
    exists w', eos E conv w i o home = (w', Exited 0).
Proof.
  intros K P E conv w i o home r d Hd Ho Hl Hv Hc Hh. apply raw_validate_ok in Hv.
  assert (Hrun : forall f, distinct i f -> f <> NoStream ->
    exists w', eos_run E conv (open_out w f) i f = (w', Exited 0)).
  { intros f Hf Hn. unfold eos_run. rewrite (read_open w i f Hf). unfold load_valid.
    rewrite Hl. cbn [bind]. rewrite Hv. cbn [rmap bind]. rewrite Hc.
    destruct f; [eauto|contradiction|eauto]. }
  unfold eos. rewrite Ho. destruct home as [hm|].
  - destruct Hh as [-> ->]. apply Hrun; [exact Hd|discriminate].
  - apply Hrun; auto.
Qed.
Print Assumptions C67_eos_success.
Lemma ends_slash_app a b : b <> "" -> ends_slash (a ++ b) = ends_slash b.
Proof.
  intros Hb. induction a as [|c a IH]; [reflexivity|].
  change (String c a ++ b) with (String c (a ++ b)). simpl.
  destruct (a ++ b) eqn:Eab; [|exact IH].
  destruct a; simpl in Eab; [contradiction|discriminate].
Qed.
Lemma append_assoc_s a b c : (a ++ b) ++ c = a ++ (b ++ c).
Proof. induction a; simpl; congruence. Qed.
(* the file below the EOS home directory, given with or without a final slash *)
Theorem C67_eos_path :
  forall home c, c <> "/"%char ->
    eos_file (home ++ String c "") = (home ++ String c "") ++ "/parameters/wcxf.yaml" /\
    eos_file (home ++ "/") = home ++ "/parameters/wcxf.yaml".
Proof.
  intros home c Hc. unfold eos_file, eos_dir, pjoin.
  rewrite !(ends_slash_app home) by discriminate.
  assert (Hs : ends_slash (String c "") = false) by (simpl; apply Ascii.eqb_neq; exact Hc).
  rewrite Hs. change (ends_slash "/") with true. cbv iota.
  split.
  - rewrite (ends_slash_app (home ++ String c "")) by discriminate.
    change (ends_slash ("/" ++ "parameters")) with false. cbv iota.
    rewrite !append_assoc_s. reflexivity.
  - rewrite append_assoc_s, (ends_slash_app home) by discriminate.
    change (ends_slash ("/" ++ "parameters")) with false. cbv iota.
    rewrite !append_assoc_s. reflexivity.
Qed.
Print Assumptions C67_eos_path.
Theorem C67_smeftsim_success :
  forall (K : StarField) (P : Type) (E : env K P) conv (w : world) i p key r s,
    can_open w i = true -> load_raw E (read w i) = Ok r -> valid_coeffs E r ->
    r_basis r = "Warsaw mass" -> conv r = Ok s ->
    exists w', smeftsim E conv w i (Some p) key = (w', Exited 0) /\ delivered w w' (OutFile p) s.
Proof.
  intros K P E conv w i p key r s Ho Hl Hv Hb Hc. apply raw_validate_ok in Hv.
  unfold smeftsim, load_valid. rewrite Ho, Hl. cbn [bind]. rewrite Hv. cbn [rmap]. rewrite Hb, Hc.
  eexists. split; [reflexivity|]. exact (delivered_write w (OutFile p) s).
Qed.
Print Assumptions C67_smeftsim_success.
(* dsixtools2wcxf reads all its input files, in the order given *)
Theorem C67_dsixtools2wcxf :
  forall (conv : list string -> res string) (w : world) is o,
    (forall i, In i is -> can_open w i = true /\ distinct i o) ->
    match conv (map (read w) is) with
    | Ok s => exists w', dsixtools2wcxf conv w is o = (w', Exited 0) /\ delivered w w' o s
    | Err e => exists w', dsixtools2wcxf conv w is o = (w', Raised e) /\ delivered w w' o ""
    end.
Proof.
  intros conv w is o H. unfold dsixtools2wcxf.
  assert (Ho : forallb (can_open w) is = true) by (apply forallb_forall; intros i Hi; apply (H i Hi)).
  assert (Hm : map (read (open_out w o)) is = map (read w) is)
    by (apply map_ext_in; intros i Hi; apply read_open; apply (H i Hi)).
  rewrite Ho, Hm. destruct (conv (map (read w) is)) as [s|e]; cbn [finish];
    eexists; (split; [reflexivity|]); [apply delivered_write|apply delivered_open].
Qed.
Print Assumptions C67_dsixtools2wcxf.

(* wcxf2dsixtools: exit status 0 means that the input loads and validates and
   that exactly its conversion was delivered; otherwise nothing is delivered *)
Theorem C67_wcxf2dsixtools :
  forall (K : StarField) (P : Type) (E : env K P) conv (w : world) i o,
    can_open w i = true -> distinct i o ->
    (exists w' r s, wcxf2dsixtools E conv w i o = (w', Exited 0) /\
       load_raw E (read w i) = Ok r /\ valid_coeffs E r /\ conv r = Ok s /\
       delivered w w' o s) \/
    (exists w' e, wcxf2dsixtools E conv w i o = (w', Raised e) /\ delivered w w' o "" /\
       forall r, load_raw E (read w i) = Ok r -> valid_coeffs E r -> conv r = Err e).
Proof.
  intros K P E conv w i o Ho Hd. setoid_rewrite <- raw_validate_ok. unfold wcxf2dsixtools. rewrite Ho, (read_open w i o Hd).
  unfold load_valid.
  destruct (load_raw E (read w i)) as [r|e]; cbn [bind].
  - destruct (raw_validate E r) as [[]|e] eqn:Ev; cbn [rmap bind].
    + destruct (conv r) as [s|e] eqn:Ec; cbn [finish].
      * left. do 3 eexists. split; [reflexivity|]. do 3 (split; [eauto|]). apply delivered_write.
      * right. do 2 eexists. split; [reflexivity|]. split; [apply delivered_open|].
        intros r' [= <-]; auto.
    + right. do 2 eexists. split; [reflexivity|]. split; [apply delivered_open|].
      intros r' [= <-]; congruence.
  - right. do 2 eexists. split; [reflexivity|]. split; [apply delivered_open|]. discriminate.
Qed.
Print Assumptions C67_wcxf2dsixtools.

(* ------------------------------------------------------------------ *)
(* A small text library and environment for the examples: the texts "wc",
   "list" and "map" are JSON texts of three documents, "y" is a YAML text *)
Definition ex_doc : jval QI :=
  JObj [("eft", JStr "SMEFT"); ("basis", JStr "A"); ("scale", JNum (qi 100 0));
        ("values", JObj [("x", JObj [("Re", JNum (qi 1 0)); ("Im", JNum (qi 2 0))]);
                         ("y", JNum (qi 7 0))])].
(* the values given as a list, a common slip *)
Definition ex_list : jval QI :=
  JObj [("eft", JStr "SMEFT"); ("basis", JStr "A"); ("scale", JNum (qi 100 0));
        ("values", JList [JStr "x"])].
Definition ex_text : textlib QI :=
  mkTL (fun s => if String.eqb s "wc" then Some ex_doc
                 else if String.eqb s "list" then Some ex_list else None)
       (fun s => if String.eqb s "" then Some JNull
                 else if String.eqb s "y" then Some ex_doc else None)
       (fun d => match d with JNull => "null" | _ => "json" end)
       (fun d => match d with JNull => "" | _ => "yaml" end)
       (fun _ => None).
Definition ex_efts : eft_reg QI := reg_create None "SMEFT" (mkEFT "SMEFT" [("dB=0", JNull)] []).
Definition ex_bases : basis_reg QI :=
  fst (basis_init None "SMEFT" "A" [("dB=0", [("x", JNull); ("y", JNull)])] None []).
Definition ex_trs : tr_reg QI unit := reg_create None (("SMEFT", "A"), "B")
  (fun d _ _ _ => Ok [("x", kadd (dgetd d "x" k0) (dgetd d "x" k0)); ("y", k0)]).
Definition ex_env : env QI unit :=
  mkEnv ex_text ex_efts ex_bases ex_trs None (fun _ => true) "usage: wcxf" (fun _ => true).
Definition ex_world : world := mkW [("in", "wc"); ("bad", "list"); ("yml", "y"); ("old", "results")] "" "".

Example C67_ex_translate :
  exists r x x', load_raw ex_env (read ex_world (InFile "in")) = Ok r /\ wc_of_raw ex_env 1 r = Ok x /\
    wc_translate (e_tr ex_env) x "B" None None 1 = Ok x' /\ wc_basis x' = "B" /\
    dkeys (wc_values x') = ["x"] /\
    wcxf_cli ex_env ex_world (Translate "B" (InFile "in") (OutFile "out") "JSON") 1 =
      (mkW [("in", "wc"); ("bad", "list"); ("yml", "y"); ("old", "results"); ("out", "json")] "" "", Exited 0).
Proof. do 3 eexists. repeat split. Qed.
Example C67_ex_failures :
  load_raw ex_env (read ex_world (InFile "in")) <> Err ValueError /\
  wcxf_cli ex_env ex_world (Match "WET" "flavio" (InFile "in") Stdout "json") 1 = (ex_world, Raised ValueError) /\
  wcxf_cli ex_env ex_world (Translate "B" (InFile "none") (OutFile "old") "json") 1 = (ex_world, Exited 2).
Proof. repeat split. discriminate. Qed.
Example C67_ex_validate :
  valid_file ex_env "wc" "wc" /\
  wcxf_cli ex_env ex_world (Validate "wc" (InFile "in")) 1 =
    (mkW (w_files ex_world) "" success_text, Exited 0).
Proof. split; [right; right; split; [reflexivity|eexists; split; [reflexivity|apply raw_validate_ok; reflexivity]]|reflexivity]. Qed.
Example C67_ex_eos :
  eos ex_env (fun _ => Ok ex_doc) ex_world (InFile "in") Stdout (Some "/home/u") =
    (mkW (w_files ex_world ++ [("/home/u/parameters/wcxf.yaml", "yaml")])%list "" "", Exited 0).
Proof. reflexivity. Qed.

(* ------------------------------------------------------------------ *)
(* What a user would also expect, and does not hold *)

(* A failing command has a nonzero exit status: false.  The value 1 returned
   by validate for an unknown TYPE is dropped (cli.py:79), and a file whose
   values are a list makes WC.validate raise AttributeError, which is taken for
   a missing subcommand (cli.py:80): the help is printed, the status is 0. *)
Theorem C67_exit_status_refuted :
  exists (E : env QI unit) (w : world),
    (exists i, ~ valid_file E "wc" (read w i) /\
       exists w', wcxf_cli E w (Validate "wc" i) 1 = (w', Exited 0) /\ w_stdout w' = e_help E) /\
    (exists ty i, ~ valid_file E ty (read w i) /\ wcxf_cli E w (Validate ty i) 1 = (w, Exited 0)).
Proof.
  exists ex_env, ex_world. split.
  - exists (InFile "bad"). split.
    + intros [[H _]|[[H _]|[_ (r & A & B)]]]; try discriminate.
      assert (A' : load_raw ex_env (read ex_world (InFile "bad")) =
                   Ok (mkRaw "SMEFT" "A" (qi 100 0) (JList [JStr "x"]) [])) by reflexivity.
      rewrite A' in A. injection A as <-. destruct B as (vals & B & _). discriminate B.
    + eexists; split; reflexivity.
  - exists "WC", (InFile "in"). split; [|reflexivity].
    intros [[H _]|[[H _]|[H _]]]; discriminate.
Qed.
Print Assumptions C67_exit_status_refuted.

(* Exit status 0 of `wcxf convert` means that the input was converted: false
   for an unknown format and for an input that cannot be parsed *)
Theorem C67_convert_silent_refuted :
  exists (E : env QI unit) (w : world) w1 w2,
    wcxf_cli E w (Convert "toml" (InFile "yml") (OutFile "out")) 1 = (w1, Exited 0) /\
    content w1 "out" = Some "" /\
    json_loads (e_text E) (read w (InFile "yml")) = None /\
    wcxf_cli E w (Convert "yaml" (InFile "yml") (OutFile "out")) 1 = (w2, Exited 0) /\
    content w2 "out" = Some "".
Proof. exists ex_env, ex_world. do 2 eexists. repeat split. Qed.
Print Assumptions C67_convert_silent_refuted.

(* A failing command leaves an existing output file alone: false, argparse has
   opened (and emptied) it before; for wcxf2eos the file wcxf.yaml of an earlier
   run is emptied before the input is read (cli.py:142) *)
Theorem C67_failure_keeps_output_refuted :
  exists (E : env QI unit) (w : world) conv,
    content w "old" = Some "results" /\
    (exists w', wcxf_cli E w (Translate "Z" (InFile "in") (OutFile "old") "json") 1 = (w', Raised ValueError) /\
       content w' "old" = Some "") /\
    (exists w0 w' e, content w0 (eos_file "/e") = Some "earlier" /\
       eos E conv w0 (InFile "bad") Stdout (Some "/e") = (w', Raised e) /\
       content w' (eos_file "/e") = Some "").
Proof.
  exists ex_env, ex_world, (fun _ => Ok ex_doc). split; [reflexivity|]. split.
  - eexists; split; reflexivity.
  - exists (mkW (w_files ex_world ++ [(eos_file "/e", "earlier")])%list "" ""). do 2 eexists.
    split; [reflexivity|]. split; reflexivity.
Qed.
Print Assumptions C67_failure_keeps_output_refuted.

(* Converting a file in place: false, the document is lost whatever it was -
   the file is emptied before it is read, and an empty YAML text is null *)
Theorem C67_in_place_refuted :
  forall (K : StarField) (P : Type) (E : env K P) (w : world) p h,
    content w p <> None -> yaml_load (e_text E) "" = Some JNull ->
    exists w', wcxf_cli E w (Convert "json" (InFile p) (OutFile p)) h = (w', Exited 0) /\
      content w' p = Some (json_text (e_text E) JNull).
Proof.
  intros K P E w p h Hc Hn. unfold wcxf_cli. cbn [input_of output_of].
  assert (Ho : can_open w (InFile p) = true).
  { simpl. rewrite dmem_dget. unfold content in Hc. destruct (dget (w_files w) p); congruence. }
  rewrite Ho. cbn [call]. unfold convert, convert_json.
  replace (read (open_out w (OutFile p)) (InFile p)) with ""
    by (simpl; unfold dgetd; rewrite dget_dset_eq; reflexivity).
  rewrite Hn. eexists. split; [reflexivity|].
  destruct (delivered_write w (OutFile p) (json_text (e_text E) JNull)) as (_ & A & _). exact A.
Qed.
Print Assumptions C67_in_place_refuted.
