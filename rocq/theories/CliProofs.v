(* Lemmas for C67. *)
From Coq Require Import List Bool String Ascii Lia.
From Verif Require Import PyBase Num WcxfModel WcxfProofs CliModel CliSpec.
Import ListNotations.
Local Open Scope string_scope.

Lemma append_nil_l s : "" ++ s = s. Proof. reflexivity. Qed.
Lemma append_nil_r s : s ++ "" = s.
Proof. induction s; simpl; congruence. Qed.

Lemma content_open_same w p : content (open_out w (OutFile p)) p = Some "".
Proof. apply dget_dset_eq. Qed.
Lemma content_open_other w o q : o <> OutFile q -> content (open_out w o) q = content w q.
Proof. destruct o; simpl; auto. intros H. apply dget_dset_neq. congruence. Qed.
Lemma content_write_other w o s q : o <> OutFile q -> content (write w o s) q = content w q.
Proof. destruct o; simpl; auto. intros H. apply dget_dset_neq. congruence. Qed.
Lemma stdin_open w o : w_stdin (open_out w o) = w_stdin w. Proof. destruct o; reflexivity. Qed.
Lemma stdin_write w o s : w_stdin (write w o s) = w_stdin w. Proof. destruct o; reflexivity. Qed.
Lemma stdout_open w o : w_stdout (open_out w o) = w_stdout w. Proof. destruct o; reflexivity. Qed.

Lemma delivered_write w o s : delivered w (write (open_out w o) o s) o s.
Proof.
  unfold delivered. destruct o as [| |p]; simpl; repeat split; auto.
  - unfold content; simpl. rewrite dget_dset_eq. unfold dgetd. rewrite dget_dset_eq. reflexivity.
  - intros q Hq. unfold content; simpl. rewrite !dget_dset_neq by auto. reflexivity.
Qed.
Lemma delivered_open w o : delivered w (open_out w o) o "".
Proof.
  unfold delivered. destruct o as [| |p]; simpl; repeat split; auto.
  - rewrite append_nil_r; reflexivity.
  - apply dget_dset_eq.
  - intros q Hq. apply dget_dset_neq; auto.
Qed.
Lemma read_open w i o : distinct i o -> read (open_out w o) i = read w i.
Proof.
  intros H. destruct i as [|p]; simpl; [apply stdin_open|].
  destruct o as [| |q]; simpl; auto.
  unfold dgetd. rewrite dget_dset_neq; auto. intros Heq. apply (H p); congruence.
Qed.

Section P.
Context {K : StarField} {P : Type}.
Variable E : env K P.

Lemma read_convert_stdin w : read w Stdin = w_stdin w. Proof. reflexivity. Qed.

Lemma lower_json_not_yaml fmt : lower fmt = "json" -> String.eqb (lower fmt) "yaml" = false.
Proof. intros ->; reflexivity. Qed.

Lemma wc_doc_raw (x : WC K) : wc_extra x = [] ->
  Forall (fun kv => match snd kv with VNum _ => True | VReIm (Some _) (Some _) => True | _ => False end)
         (wc_values x) ->
  wc_doc x (doc_of_raw (raw_of_wc x)).
Proof.
  intros Hx Hv. unfold wc_doc, doc_of_raw, raw_of_wc; simpl. rewrite Hx. simpl.
  eexists; split; [reflexivity|].
  induction Hv as [|[k v] l H Hl IH]; simpl; constructor; auto.
  split; auto. simpl in *. destruct v as [y|[re|] [im|]]; simpl in *; try contradiction; reflexivity.
Qed.

Lemma dict2values_full (d : dict string K) :
  Forall (fun kv => match snd kv with VNum _ => True | VReIm (Some _) (Some _) => True | _ => False end)
         (dict2values d).
Proof.
  unfold dict2values, dmap. induction d as [|[k v] d IH]; simpl; constructor; auto.
  simpl. unfold to_complex_dict. destruct (kdec (kim v) k0); exact I.
Qed.

Lemma translated_doc (tr : tr_reg K P) (x x' : WC K) b h :
  b <> wc_basis x -> wc_translate tr x b None None h = Ok x' ->
  wc_doc x' (doc_of_raw (raw_of_wc x')).
Proof.
  unfold wc_translate. intros Hb. destruct (keqb b (wc_basis x)) eqn:E1.
  - apply keqb_true in E1; congruence.
  - destruct (reg_get tr _) as [f|]; [|discriminate].
    unfold translator_translate, bind. destruct (f _ _ _ _) as [o|]; [|discriminate].
    intros [= <-]. apply wc_doc_raw; [reflexivity|apply dict2values_full].
Qed.
Lemma matched_doc (ma : ma_reg K P) (x x' : WC K) e b h :
  (e, b) <> (wc_eft x, wc_basis x) -> wc_match ma x e b None h = Ok x' ->
  wc_doc x' (doc_of_raw (raw_of_wc x')).
Proof.
  unfold wc_match. intros Hb.
  destruct (keqb e (wc_eft x) && keqb b (wc_basis x)) eqn:E1.
  - apply andb_true_iff in E1 as [A B]. apply keqb_true in A. apply keqb_true in B. congruence.
  - destruct (reg_get ma _) as [f|]; [|discriminate].
    unfold matcher_match, bind. destruct (f _ _ _) as [o|]; [|discriminate].
    intros [= <-]. apply wc_doc_raw; [reflexivity|apply dict2values_full].
Qed.

Lemma dump_text_ok fmt r :
  lower fmt = "json" \/ lower fmt = "yaml" ->
  exists s, dump_text E fmt r = Ok s /\ in_format (e_text E) fmt (doc_of_raw r) s.
Proof.
  unfold dump_text, in_format. intros [H|H]; rewrite H; simpl; eexists; split; eauto.
Qed.
Lemma dump_text_inv fmt r s :
  dump_text E fmt r = Ok s -> in_format (e_text E) fmt (doc_of_raw r) s.
Proof.
  unfold dump_text, in_format.
  destruct (String.eqb_spec (lower fmt) "json"); [intros [= <-]; auto|].
  destruct (String.eqb_spec (lower fmt) "yaml"); [intros [= <-]; auto|discriminate].
Qed.

(* files other than the output are never touched *)
Lemma convert_frame w fmt i o q : o <> OutFile q ->
  content (fst (convert E w fmt i o)) q = content w q.
Proof.
  intros Hq. unfold convert, convert_json, convert_yaml; simpl.
  repeat match goal with
         | |- context [if ?b then _ else _] => destruct b
         | |- context [match ?x with Some _ => _ | None => _ end] => destruct x
         end; rewrite ?content_write_other by assumption; reflexivity.
Qed.
Lemma convert_stdin w fmt i o : w_stdin (fst (convert E w fmt i o)) = w_stdin w.
Proof.
  unfold convert, convert_json, convert_yaml; simpl.
  repeat match goal with
         | |- context [if ?b then _ else _] => destruct b
         | |- context [match ?x with Some _ => _ | None => _ end] => destruct x
         end; rewrite ?stdin_write; reflexivity.
Qed.
Lemma emit_frame w o t r q : o <> OutFile q -> content (fst (emit w o t r)) q = content w q.
Proof. intros H. destruct t; simpl; auto. apply content_write_other; auto. Qed.
Lemma emit_stdin w o t r : w_stdin (fst (emit w o t r)) = w_stdin w.
Proof. destruct t; simpl; auto. apply stdin_write. Qed.
Lemma call_frame w c h q : output_of c <> OutFile q ->
  content (fst (call E w c h)) q = content w q /\ w_stdin (fst (call E w c h)) = w_stdin w.
Proof.
  intros H. destruct c as [|fmt i o|b i o fmt|e b i o fmt|ty i]; cbn [call output_of] in *; auto.
  - split; [apply convert_frame; auto|apply convert_stdin].
  - split; [apply emit_frame; auto|apply emit_stdin].
  - split; [apply emit_frame; auto|apply emit_stdin].
  - unfold validate.
    repeat match goal with |- context [if ?b then _ else _] => destruct b end; simpl; auto;
      split; try (apply emit_frame; discriminate); apply emit_stdin.
Qed.
Lemma call_stdin w c h : w_stdin (fst (call E w c h)) = w_stdin w.
Proof.
  destruct c as [|fmt i o|b i o fmt|e b i o fmt|ty i]; cbn [call]; auto.
  - apply convert_stdin.
  - apply emit_stdin.
  - apply emit_stdin.
  - unfold validate.
    repeat match goal with |- context [if ?b then _ else _] => destruct b end; simpl; auto;
      apply emit_stdin.
Qed.
Lemma cli_frame w c h : only_output w (fst (wcxf_cli E w c h)) (output_of c).
Proof.
  unfold wcxf_cli, only_output. destruct (can_open w (input_of c)); [|simpl; auto].
  pose proof (call_stdin (open_out w (output_of c)) c h) as Hs.
  pose proof (call_frame (open_out w (output_of c)) c h) as Hc.
  destruct (call E (open_out w (output_of c)) c h) as [w2 [v|[]]] eqn:Ec; cbn [fst] in *;
    (split; [rewrite ?stdin_write, Hs; apply stdin_open
            |intros q Hq; destruct (Hc q Hq) as [A _]; rewrite ?content_write_other by discriminate;
             rewrite A; apply content_open_other; auto]).
Qed.

(* a run of a command whose work is one emit *)
Definition work (c : command) (s : string) (h : nat) : res string :=
  match c with
  | Translate b _ _ fmt => bind (load_raw E s) (fun r => bind (raw_translate E r b h) (dump_text E fmt))
  | Match e b _ _ fmt => bind (load_raw E s) (fun r => bind (raw_match E r e b h) (dump_text E fmt))
  | _ => Err ValueError
  end.
Lemma cli_work w c h :
  (exists b i o fmt, c = Translate b i o fmt) \/ (exists e b i o fmt, c = Match e b i o fmt) ->
  can_open w (input_of c) = true -> distinct (input_of c) (output_of c) ->
  wcxf_cli E w c h =
    match work c (read w (input_of c)) h with
    | Ok s => (write (open_out w (output_of c)) (output_of c) s, Exited 0)
    | Err AttributeError => (write (open_out w (output_of c)) Stdout (e_help E), Exited 0)
    | Err e => (open_out w (output_of c), Raised e)
    end.
Proof.
  intros Hc Ho Hd. unfold wcxf_cli. rewrite Ho.
  assert (Hr := read_open w _ _ Hd).
  destruct Hc as [(b & i & o & fmt & ->)|(e & b & i & o & fmt & ->)];
    cbn [call output_of input_of work] in *;
    unfold translate, match_; rewrite Hr; destruct (bind _ _) as [s|[]]; reflexivity.
Qed.

Lemma raw_validate_ok r : raw_validate E r = Ok tt <-> valid_coeffs E r.
Proof.
  unfold raw_validate, valid_coeffs. destruct (r_values r) as [| | | | |o];
    try (split; [|intros (vals & H & _); discriminate];
         destruct (wc_validate _ _ _); discriminate).
  rewrite wc_validate_ok. cbn [wc_eft wc_basis wc_values]. rewrite dkeys_dmap. split.
  - intros H. exists o. auto.
  - intros (vals & [= ->] & H). exact H.
Qed.

Lemma validate_emit w ty i :
  (valid_file E ty (read w i) /\ validate E w ty i = (write w Stdout success_text, Ok (Some 0))) \/
  (~ valid_file E ty (read w i) /\
   exists r, validate E w ty i = (w, r) /\
             (r = Ok (Some 1) <-> ty <> "eft" /\ ty <> "basis" /\ ty <> "wc") /\
             (r = Ok (Some 1) \/ exists e, r = Err e)).
Proof.
  unfold validate, valid_file. setoid_rewrite <- raw_validate_ok.
  destruct (String.eqb_spec ty "eft") as [->|N1];
    [|destruct (String.eqb_spec ty "basis") as [->|N2];
      [|destruct (String.eqb_spec ty "wc") as [->|N3]]].
  - destruct (load_doc E (read w i)) as [d|e] eqn:E1; cbn [bind emit].
    + destruct (eft_of_doc d) as [x|e] eqn:E2; cbn [bind emit].
      * left. split; [|reflexivity]. left. split; auto. eauto.
      * right. split.
        -- intros [[_ (d' & x & A & B)]|[[H _]|[H _]]]; [congruence|discriminate|discriminate].
        -- eexists; split; [reflexivity|]. split; [|eauto].
           split; [discriminate|intros (A & _); congruence].
    + right. split.
      * intros [[_ (d' & x & A & B)]|[[H _]|[H _]]]; [congruence|discriminate|discriminate].
      * eexists; split; [reflexivity|]. split; [|eauto].
        split; [discriminate|intros (A & _); congruence].
  - destruct (load_doc E (read w i)) as [d|e] eqn:E1; cbn [bind emit].
    + destruct (basis_of_doc E d) as [x|e] eqn:E2; cbn [bind emit].
      * unfold basis_check.
        destruct (basis_validate (e_efts E) x) as [[]|e] eqn:E3; cbn [bind emit];
          [destruct (e_tex E x) eqn:E4; cbn [bind emit]|].
        -- left. split; [|reflexivity]. right; left. split; auto. exists d, x; auto.
        -- right. split.
           ++ intros [[H _]|[[_ (d' & x' & A & B & C & D)]|[H _]]]; [discriminate| |discriminate].
              congruence.
           ++ eexists; split; [reflexivity|]. split; [|eauto].
              split; [discriminate|intros (_ & A & _); congruence].
        -- right. split.
           ++ intros [[H _]|[[_ (d' & x' & A & B & C & D)]|[H _]]]; [discriminate| |discriminate].
              congruence.
           ++ eexists; split; [reflexivity|]. split; [|eauto].
              split; [discriminate|intros (_ & A & _); congruence].
      * right. split.
        -- intros [[H _]|[[_ (d' & x' & A & B & C & D)]|[H _]]]; [discriminate| |discriminate].
           congruence.
        -- eexists; split; [reflexivity|]. split; [|eauto].
           split; [discriminate|intros (_ & A & _); congruence].
    + right. split.
      * intros [[H _]|[[_ (d' & x' & A & B & C & D)]|[H _]]]; [discriminate| |discriminate].
        congruence.
      * eexists; split; [reflexivity|]. split; [|eauto].
        split; [discriminate|intros (_ & A & _); congruence].
  - destruct (load_raw E (read w i)) as [r|e] eqn:E1; cbn [bind emit].
    + destruct (raw_validate E r) as [[]|e] eqn:E2; cbn [bind emit].
      * left. split; [|reflexivity]. right; right. split; auto. eauto.
      * right. split.
        -- intros [[H _]|[[H _]|[_ (r' & A & B)]]]; [discriminate|discriminate|congruence].
        -- eexists; split; [reflexivity|]. split; [|eauto].
           split; [discriminate|intros (_ & _ & A); congruence].
    + right. split.
      * intros [[H _]|[[H _]|[_ (r' & A & B)]]]; [discriminate|discriminate|congruence].
      * eexists; split; [reflexivity|]. split; [|eauto].
        split; [discriminate|intros (_ & _ & A); congruence].
  - right. split.
    + intros [[H _]|[[H _]|[H _]]]; congruence.
    + eexists; split; [reflexivity|]. split; [|auto]. split; auto.
Qed.
End P.
