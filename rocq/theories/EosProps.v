(* C62: the conversion to EOS parameters. *)
From Coq Require Import List Bool ZArith QArith Arith Lia String Ascii Field.
From Verif Require Import PyBase Num SymFacts EosModel.
Import ListNotations.
Local Open Scope string_scope.
Local Open Scope list_scope.

(* ---------- strings ---------- *)
Local Arguments Ascii.eqb : simpl never.
(* the character c does not occur in s *)
Fixpoint lacks (c : ascii) (s : string) : bool :=
  match s with EmptyString => true | String a r => negb (Ascii.eqb a c) && lacks c r end.
(* a name without braces *)
Definition plain (s : string) : Prop := lacks "{" s = true /\ lacks "}" s = true.
(* the names of the real and imaginary parts of the coefficient x of the sector p *)
Definition re_name (p x : string) : string := (p ++ "Re{" ++ x ++ "}")%string.
Definition im_name (p x : string) : string := (p ++ "Im{" ++ x ++ "}")%string.

Lemma append_nil_r s : (s ++ "")%string = s.
Proof. induction s as [|c s IH]; [reflexivity|]. cbn. now rewrite IH. Qed.
Lemma append_assoc' a b c : ((a ++ b) ++ c)%string = (a ++ b ++ c)%string.
Proof. induction a as [|x a IH]; [reflexivity|]. cbn. now rewrite IH. Qed.
Lemma lacks_app c a b : lacks c (a ++ b)%string = lacks c a && lacks c b.
Proof. induction a as [|x a IH]; [reflexivity|]. cbn. rewrite IH. apply andb_assoc. Qed.
Lemma until_brace_app x r : lacks "}" x = true -> until_brace (x ++ String "}" r) = Some (x, r).
Proof.
  induction x as [|c x IH]; intros H; [reflexivity|]. cbn in H |- *. apply andb_prop in H as [A B]. apply negb_true_iff in A.
  rewrite A, IH by exact B. reflexivity.
Qed.
Definition is_tag (t : string) : Prop := t = "Re{" \/ t = "Im{".
Lemma eqb_neq_trans a b c : Ascii.eqb a c = false -> Ascii.eqb b a = true -> Ascii.eqb b c = false.
Proof. intros A B. apply Ascii.eqb_eq in B. now subst. Qed.
Ltac chars := repeat match goal with |- context [if Ascii.eqb ?a ?b then _ else _] => destruct (Ascii.eqb_spec a b); subst; try reflexivity; try discriminate end.
(* a tag cannot start inside a part without braces *)
Lemma eat_before t t' a p r : is_tag t -> is_tag t' -> lacks "{" (String a p) = true -> eat t (String a p ++ t' ++ r) = None.
Proof.
  intros T T' H. cbn in H. apply andb_prop in H as [_ H].
  destruct T as [->| ->], T' as [->| ->]; destruct p as [|b [|d p]]; cbn; chars; cbn in H; rewrite ?Ascii.eqb_refl in H; cbn in H; rewrite ?andb_false_r in H; discriminate.
Qed.
Lemma eat_lacks t s u : is_tag t -> lacks "{" s = true -> eat t s = Some u -> False.
Proof.
  intros T H E. destruct T as [->| ->]; destruct s as [|a [|b [|c s]]]; cbn in E; try discriminate;
    repeat match type of E with context [if Ascii.eqb ?a ?b then _ else _] => destruct (Ascii.eqb_spec a b); subst; try discriminate end;
    exfalso; cbn in H; rewrite ?Ascii.eqb_refl in H; cbn in H; rewrite ?andb_false_r in H; discriminate.
Qed.
Lemma contains_lacks t s : is_tag t -> lacks "{" s = true -> contains t s = false.
Proof.
  intros T. induction s as [|c s IH]; intros H.
  - destruct T as [->| ->]; reflexivity.
  - cbn [contains]. destruct (eat t (String c s)) as [u|] eqn:E; [exfalso; now apply (eat_lacks t (String c s) u)|].
    apply IH. cbn in H. now apply andb_prop in H as [_ H].
Qed.
Lemma contains_app t p r : contains t (p ++ t ++ r) = true.
Proof.
  assert (E : forall t r, eat t (t ++ r) = Some r) by (clear; induction t as [|c t IH]; intros r; [reflexivity|]; cbn; rewrite Ascii.eqb_refl; apply IH).
  induction p as [|c p IH].
  - cbn [append]. destruct (t ++ r)%string as [|c s] eqn:Q; cbn [contains]; rewrite <- Q, E; reflexivity.
  - cbn [append contains]. destruct (eat t (String c (p ++ t ++ r))); [reflexivity|exact IH].
Qed.
Lemma contains_re_im p x : plain p -> plain x -> contains "Re{" (im_name p x) = false.
Proof.
  intros [Hp _] [Hx _]. unfold im_name. induction p as [|c p IH].
  - cbn [append contains eat Ascii.eqb]. cbn. apply contains_lacks; [now left|]. rewrite lacks_app, Hx. reflexivity.
  - pose proof (eat_before "Re{" "Im{" c p (x ++ "}") (or_introl eq_refl) (or_intror eq_refl) Hp) as EB. cbn [append] in *. cbn [contains]. rewrite EB.
    apply IH. cbn in Hp. now apply andb_prop in Hp as [_ Hp].
Qed.
Lemma re_sub_name t p x : is_tag t -> lacks "{" p = true -> lacks "}" x = true -> x <> "" -> re_sub t (p ++ t ++ x ++ "}") = (p ++ x)%string.
Proof.
  intros T Hp Hx NX. unfold re_sub.
  assert (Q : forall n, (String.length p < n)%nat -> re_sub_n n t (p ++ t ++ x ++ "}") = (p ++ x)%string).
  { clear -T Hp Hx NX. induction p as [|c p IH]; intros n L; destruct n as [|n]; try (cbn in L; lia).
    - cbn [append]. assert (E : eat t (t ++ x ++ "}") = Some (x ++ "}")%string) by (destruct T as [->| ->]; reflexivity).
      destruct (t ++ x ++ "}")%string as [|c s] eqn:Q; [destruct T as [->| ->]; discriminate|].
      cbn [re_sub_n]. rewrite E, until_brace_app by exact Hx. destruct x as [|a g]; [congruence|].
      destruct n; cbn [re_sub_n]; now rewrite append_nil_r.
    - pose proof (eat_before t t c p (x ++ "}") T T Hp) as EB. cbn [append] in *. cbn [re_sub_n]. rewrite EB. f_equal. apply IH; [|cbn in L; lia].
      cbn in Hp. now apply andb_prop in Hp as [_ Hp]. }
  apply Q. clear. assert (LA : forall a b, String.length (a ++ b) = (String.length a + String.length b)%nat) by (induction a as [|c a IH]; intros b; [reflexivity|]; cbn; now rewrite IH).
  rewrite !LA. cbn. lia.
Qed.
Lemma str_len_app a b : String.length (a ++ b) = (String.length a + String.length b)%nat.
Proof. induction a as [|c a IH]; [reflexivity|]. cbn. now rewrite IH. Qed.
Lemma replace_none n old new s : contains old s = false -> replace_n n old new s = s.
Proof.
  revert s. induction n as [|n IH]; intros s H; [reflexivity|]. destruct s as [|c s]; [reflexivity|]. cbn [replace_n]. cbn [contains] in H.
  destruct (eat old (String c s)); [discriminate|]. now rewrite IH.
Qed.
Lemma eat_lnu c a r : contains "lnu" (String c a) = false -> eat "lnu" (String c a ++ "lnu" ++ r) = None.
Proof.
  intros H. cbn [contains] in H. destruct (eat "lnu" (String c a)) eqn:E; [discriminate|]. clear H.
  destruct a as [|d [|e a]]; cbn in E |- *; chars.
  all: repeat match type of E with context [if Ascii.eqb ?x ?y then _ else _] => destruct (Ascii.eqb_spec x y); subst; try discriminate; try congruence end.
Qed.
Lemma replace_lnu new a b : contains "lnu" a = false -> contains "lnu" b = false -> str_replace "lnu" new (a ++ "lnu" ++ b) = (a ++ new ++ b)%string.
Proof.
  intros A B. unfold str_replace.
  assert (Q : forall n, (String.length a < n)%nat -> replace_n n "lnu" new (a ++ "lnu" ++ b) = (a ++ new ++ b)%string).
  { induction a as [|c a IH]; intros n L; destruct n as [|n]; try (cbn in L; lia).
    - cbn [append replace_n]. cbn [eat]. rewrite !Ascii.eqb_refl. now rewrite replace_none.
    - pose proof (eat_lnu c a b A) as EB. cbn [append] in *. cbn [replace_n]. rewrite EB. f_equal. apply IH; [|cbn in L; lia].
      cbn [contains] in A. destruct (eat "lnu" (String c a)); [discriminate|exact A]. }
  apply Q. rewrite !str_len_app. cbn. lia.
Qed.

(* ---------- the conversion ---------- *)
Lemma dset_new_keys {V} (d : dict string V) k v : ~ In k (dkeys d) -> dkeys (dset d k v) = dkeys d ++ [k].
Proof.
  induction d as [|[j u] d IH]; intros N; [reflexivity|]. cbn [dkeys map fst] in N. cbn [dset]. destruct (keqb_spec k j) as [->|]; [exfalso; apply N; now left|].
  cbn [dkeys map fst app]. f_equal. apply IH. intros X. apply N. now right.
Qed.
Lemma key_dget {V} (d : dict string V) k : In k (dkeys d) -> exists v, dget d k = Some v.
Proof. intros H. destruct (dget d k) as [v|] eqn:E; [eauto|]. apply dget_None in E. contradiction. Qed.
Section Conv.
Context {K : StarField}.
Local Open Scope K_scope.
Notation smdict := (dict string (dict string K)).
Lemma np_re p x (wc : dict string K) : plain p -> plain x -> x <> "" -> dget wc (re_name p x) = None ->
  get_eos_np (re_name p x) wc = match dget wc (p ++ x)%string with Some z => Ok (kre z) | None => eos_cc kre (p ++ x)%string wc end.
Proof.
  intros [P _] [_ X] NX N. unfold get_eos_np. rewrite N. unfold re_name. rewrite contains_app, (re_sub_name "Re{") by (auto; now left). reflexivity.
Qed.
Lemma np_im p x (wc : dict string K) : plain p -> plain x -> x <> "" -> dget wc (im_name p x) = None ->
  get_eos_np (im_name p x) wc = match dget wc (p ++ x)%string with Some z => Ok (kim z) | None => eos_cc kim (p ++ x)%string wc end.
Proof.
  intros P X NX N. unfold get_eos_np. rewrite N, contains_re_im by assumption. destruct P as [P _], X as [_ X].
  unfold im_name. rewrite contains_app, (re_sub_name "Im{") by (auto; now right). reflexivity.
Qed.
Lemma loop_ok wc : forall (sm acc : smdict) eosd, wfdict sm -> (forall k, In k (dkeys sm) -> ~ In k (dkeys acc)) -> wcxf2eos_loop wc sm acc = Ok eosd ->
  dkeys eosd = dkeys acc ++ dkeys sm /\
  (forall k, In k (dkeys acc) -> dget eosd k = dget acc k) /\
  (forall k v, dget sm k = Some v -> exists c np, dget v "central" = Some c /\ get_eos_np k wc = Ok np /\
     dget eosd k = Some [("central", c + np); ("min", c + np); ("max", c + np)]).
Proof.
  induction sm as [|[k v] sm IH]; intros acc eosd WF DJ R.
  - cbn in R. injection R as <-. split; [now rewrite app_nil_r|]. split; [auto|]. intros ? ? H. discriminate.
  - cbn in R. destruct (dget v "central") as [c|] eqn:C; [|discriminate]. destruct (get_eos_np k wc) as [np|] eqn:N; [|discriminate]. cbn [bind] in R.
    inversion WF as [|? ? NI WF' E1]; subst.
    assert (KA : ~ In k (dkeys acc)) by (apply DJ; now left).
    set (w := fold_left (fun d q => dset d q (c + np)) ["central"; "min"; "max"] []) in R.
    assert (DK : dkeys (dset acc k w) = dkeys acc ++ [k]).
    { now apply dset_new_keys. }
    destruct (IH (dset acc k w) eosd WF') as (A & B & D); [|exact R|].
    { intros j Hj. rewrite DK. intros X. apply in_app_or in X as [X|[<-|[]]]; [apply (DJ j); [now right|exact X]|]. now apply NI. }
    split; [rewrite A, DK, <- app_assoc; reflexivity|]. split.
    + intros j Hj. rewrite B by (rewrite DK; apply in_or_app; now left). apply dget_dset_neq. intros ->. contradiction.
    + intros j u Hj. cbn [dget] in Hj. destruct (keqb_spec j k) as [->|NE]; [|exact (D j u Hj)]. injection Hj as <-.
      exists c, np. split; [exact C|]. split; [exact N|]. rewrite B by (rewrite DK; apply in_or_app; right; now left). rewrite dget_dset_eq. reflexivity.
Qed.
Lemma loop_total wc : forall (sm acc : smdict), (forall k v, In (k, v) sm -> dget v "central" <> None) ->
  (forall k, In k (dkeys sm) -> exists np, get_eos_np k wc = Ok np) -> exists eosd, wcxf2eos_loop wc sm acc = Ok eosd.
Proof.
  induction sm as [|[k v] sm IH]; intros acc C N; [eexists; reflexivity|]. cbn.
  destruct (dget v "central") as [c|] eqn:E; [|elim (C k v (or_introl eq_refl) E)]. destruct (N k (or_introl eq_refl)) as (np & ->). cbn [bind].
  apply IH; [intros j u H; exact (C j u (or_intror H))|intros j H; exact (N j (or_intror H))].
Qed.
Lemma np_err k (wc : dict string K) e : get_eos_np k wc = Err e -> e = ValueError.
Proof.
  assert (X : forall f k2, eos_cc f k2 wc = Err e -> e = ValueError).
  { intros f k2. unfold eos_cc. destruct (_ || _); [|discriminate]. destruct (negb _); [congruence|discriminate]. }
  unfold get_eos_np. destruct (dget wc k); [discriminate|]. destruct (contains "Re{" k); [destruct (dget wc _); [discriminate|apply X]|].
  destruct (contains "Im{" k); [destruct (dget wc _); [discriminate|apply X]|discriminate].
Qed.
Lemma loop_err wc k e : forall (sm acc : smdict), (forall k v, In (k, v) sm -> dget v "central" <> None) -> In k (dkeys sm) -> get_eos_np k wc = Err e ->
  wcxf2eos_loop wc sm acc = Err ValueError.
Proof.
  induction sm as [|[j v] sm IH]; intros acc C H N; [destruct H|]. cbn.
  destruct (dget v "central") as [c|] eqn:E; [|elim (C j v (or_introl eq_refl) E)].
  destruct (get_eos_np j wc) as [np|e'] eqn:Q; cbn [bind]; [|now rewrite (np_err _ _ _ Q)].
  apply IH; [intros i u X; exact (C i u (or_intror X))| |exact N]. destruct H as [<-|H]; [cbn in N; congruence|exact H].
Qed.
End Conv.

(* The names of the result are those of the SM dictionary, in the same order; central value,
   minimum and maximum agree; without new physics they are the SM values. *)
Theorem C62_structure : forall (K : StarField) (wc : dict string K) sm eosd, wfdict sm -> wcxf2eos wc sm = Ok eosd ->
  dkeys eosd = dkeys sm /\
  forall k v, dget sm k = Some v -> exists c np : K, dget v "central" = Some c /\
    dget eosd k = Some [("central", (c + np)%K); ("min", (c + np)%K); ("max", (c + np)%K)] /\ (wc = [] -> np = 0%K).
Proof.
  intros K wc sm eosd WF R. destruct (loop_ok wc sm [] eosd WF (fun k _ F => F) R) as (A & _ & D). split; [exact A|].
  intros k v H. destruct (D k v H) as (c & np & C & N & E). exists c, np. split; [exact C|]. split; [exact E|]. intros ->.
  unfold get_eos_np, eos_cc in N. cbn in N. destruct (contains "Re{" k), (contains "Im{" k); injection N as <-; reflexivity.
Qed.
Print Assumptions C62_structure.

(* If the coefficient called px is present, the parameters p Re{x} and p Im{x} are the SM values plus
   its real and imaginary part.  Hence the result and the SM values determine the coefficient. *)
Theorem C62_real_and_imaginary_part : forall (K : StarField) (wc : dict string K) sm eosd p x z,
  wfdict sm -> wcxf2eos wc sm = Ok eosd ->
  plain p -> plain x -> x <> "" -> (forall k, In k (dkeys wc) -> plain k) -> dget wc (p ++ x)%string = Some z ->
  (forall v, dget sm (re_name p x) = Some v -> exists (c : K) w, dget v "central" = Some c /\
     dget eosd (re_name p x) = Some w /\ dget w "central" = Some (c + kre z)%K) /\
  (forall v, dget sm (im_name p x) = Some v -> exists (c : K) w, dget v "central" = Some c /\
     dget eosd (im_name p x) = Some w /\ dget w "central" = Some (c + kim z)%K) /\
  z = (kre z + ki * kim z)%K.
Proof.
  intros K wc sm eosd p x z WF R P X NX PL Z. destruct (loop_ok wc sm [] eosd WF (fun k _ F => F) R) as (_ & _ & D).
  assert (NB : forall t, is_tag t -> dget wc (p ++ t ++ x ++ "}")%string = None).
  { intros t T. apply dget_None. intros H. destruct (PL _ H) as [Q _]. rewrite !lacks_app in Q. destruct T as [->| ->]; cbn in Q; rewrite andb_false_r in Q; discriminate. }
  split; [|split].
  - intros v V. destruct (D _ v V) as (c & np & C & N & E). exists c. eexists. split; [exact C|]. split; [exact E|].
    rewrite np_re in N by (auto; apply NB; now left). rewrite Z in N. injection N as <-. reflexivity.
  - intros v V. destruct (D _ v V) as (c & np & C & N & E). exists c. eexists. split; [exact C|]. split; [exact E|].
    rewrite np_im in N by (auto; apply NB; now right). rewrite Z in N. injection N as <-. reflexivity.
  - symmetry. apply kre_im.
Qed.
Print Assumptions C62_real_and_imaginary_part.

(* Charged currents.  The parameter of the lepton-universal coefficient  a lnu b  is the common value of the
   coefficients for electron and muon; if these differ the conversion fails. *)
Theorem C62_charged_currents : forall (K : StarField) (wc : dict string K) sm p x a b,
  wfdict sm -> (forall k v, In (k, v) sm -> dget v "central" <> None) ->
  plain p -> plain x -> x <> "" -> (forall k, In k (dkeys wc) -> plain k) ->
  (p ++ x)%string = (a ++ "lnu" ++ b)%string -> contains "lnu" a = false -> contains "lnu" b = false -> dget wc (p ++ x)%string = None ->
  In (re_name p x) (dkeys sm) \/ In (im_name p x) (dkeys sm) ->
  let ze := dgetd wc (a ++ "enue" ++ b)%string 0%K in let zmu := dgetd wc (a ++ "munumu" ++ b)%string 0%K in
  (ze <> zmu -> wcxf2eos wc sm = Err ValueError) /\
  (forall eosd, wcxf2eos wc sm = Ok eosd -> ze = zmu /\
     (forall v, dget sm (re_name p x) = Some v -> exists (c : K) w, dget v "central" = Some c /\ dget eosd (re_name p x) = Some w /\ dget w "central" = Some (c + kre ze)%K) /\
     (forall v, dget sm (im_name p x) = Some v -> exists (c : K) w, dget v "central" = Some c /\ dget eosd (im_name p x) = Some w /\ dget w "central" = Some (c + kim ze)%K)).
Proof.
  intros K wc sm p x a b WF CE P X NX PL EQ CA CB Z IN ze zmu.
  assert (NB : forall t, is_tag t -> dget wc (p ++ t ++ x ++ "}")%string = None).
  { intros t T. apply dget_None. intros H. destruct (PL _ H) as [Q _]. rewrite !lacks_app in Q. destruct T as [->| ->]; cbn in Q; rewrite andb_false_r in Q; discriminate. }
  assert (NR : get_eos_np (re_name p x) wc = eos_cc kre (p ++ x)%string wc) by (rewrite np_re by (auto; apply NB; now left); now rewrite Z).
  assert (NI : get_eos_np (im_name p x) wc = eos_cc kim (p ++ x)%string wc) by (rewrite np_im by (auto; apply NB; now right); now rewrite Z).
  assert (CC : forall f, eos_cc f (p ++ x)%string wc = if negb (kdec ze zmu) then Err ValueError else Ok (if dmem wc (a ++ "enue" ++ b)%string || dmem wc (a ++ "munumu" ++ b)%string then f ze else 0%K)).
  { intros f. unfold eos_cc. rewrite EQ, !replace_lnu by assumption. fold ze zmu. destruct (_ || _) eqn:M; [reflexivity|].
    apply orb_false_iff in M as [M1 M2]. assert (E0 : ze = 0%K /\ zmu = 0%K).
    { unfold ze, zmu, dgetd. rewrite !dmem_dget in M1, M2. destruct (dget wc (a ++ "enue" ++ b)%string), (dget wc (a ++ "munumu" ++ b)%string); try discriminate. auto. }
    destruct E0 as [-> ->]. destruct (kdec_spec K 0%K 0%K) as [_|N]; [reflexivity|congruence]. }
  assert (C0 : forall f : K -> K, f 0%K = 0%K -> (if dmem wc (a ++ "enue" ++ b)%string || dmem wc (a ++ "munumu" ++ b)%string then f ze else 0%K) = f ze).
  { intros f F. destruct (_ || _) eqn:M; [reflexivity|]. apply orb_false_iff in M as [M1 _]. unfold ze, dgetd. rewrite dmem_dget in M1. destruct (dget wc (a ++ "enue" ++ b)%string); [discriminate|now rewrite F]. }
  split.
  - intros NE. assert (KD : kdec ze zmu = false) by (destruct (kdec_spec K ze zmu); [contradiction|reflexivity]).
    destruct IN as [H|H]; [apply (loop_err wc _ ValueError sm [] CE H)|apply (loop_err wc _ ValueError sm [] CE H)]; rewrite ?NR, ?NI, CC, KD; reflexivity.
  - intros eosd R. destruct (loop_ok wc sm [] eosd WF (fun k _ F => F) R) as (_ & _ & D).
    assert (KD : ze = zmu).
    { destruct (kdec_spec K ze zmu) as [E|N]; [exact E|]. exfalso. assert (KD : kdec ze zmu = false) by (destruct (kdec_spec K ze zmu); [contradiction|reflexivity]).
      destruct IN as [H|H]; apply key_dget in H as (v & V); destruct (D _ v V) as (c & np & _ & Q & _); rewrite ?NR, ?NI, CC in Q; discriminate. }
    assert (KT : kdec ze zmu = true) by (destruct (kdec_spec K ze zmu); [reflexivity|contradiction]).
    split; [exact KD|]. split.
    + intros v V. destruct (D _ v V) as (c & np & C & N & E). exists c. eexists. split; [exact C|]. split; [exact E|].
      rewrite NR, CC, KT in N. cbn [negb] in N. rewrite C0 in N by (apply kre_of_real, kreal_0). injection N as <-. reflexivity.
    + intros v V. destruct (D _ v V) as (c & np & C & N & E). exists c. eexists. split; [exact C|]. split; [exact E|].
      rewrite NI, CC, KT in N. cbn [negb] in N. rewrite C0 in N by (apply kim_zero_iff, kreal_0). injection N as <-. reflexivity.
Qed.
Print Assumptions C62_charged_currents.

(* The check of lepton universality does not look at the tau: whatever the coefficient for the
   tau, the conversion succeeds and the result does not depend on it. *)
Theorem C62_tau_universality_refuted : forall (K : StarField) (z t c : K),
  wcxf2eos [("b->cenue::cVL", z); ("b->cmunumu::cVL", z); ("b->ctaunutau::cVL", t)] [("b->clnu::Re{cVL}", [("central", c)])] =
  Ok [("b->clnu::Re{cVL}", [("central", (c + kre z)%K); ("min", (c + kre z)%K); ("max", (c + kre z)%K)])].
Proof.
  intros K z t c. unfold wcxf2eos. cbn [wcxf2eos_loop dget]. rewrite keqb_refl. unfold get_eos_np.
  replace (dget [("b->cenue::cVL", z); ("b->cmunumu::cVL", z); ("b->ctaunutau::cVL", t)] "b->clnu::Re{cVL}") with (@None K) by reflexivity.
  replace (contains "Re{" "b->clnu::Re{cVL}") with true by reflexivity.
  replace (re_sub "Re{" "b->clnu::Re{cVL}") with "b->clnu::cVL" by reflexivity.
  replace (dget [("b->cenue::cVL", z); ("b->cmunumu::cVL", z); ("b->ctaunutau::cVL", t)] "b->clnu::cVL") with (@None K) by reflexivity.
  unfold eos_cc. replace (str_replace "lnu" "enue" "b->clnu::cVL") with "b->cenue::cVL" by reflexivity.
  replace (str_replace "lnu" "munumu" "b->clnu::cVL") with "b->cmunumu::cVL" by reflexivity.
  set (wc := [("b->cenue::cVL", z); ("b->cmunumu::cVL", z); ("b->ctaunutau::cVL", t)]).
  replace (dmem wc "b->cenue::cVL") with true by reflexivity. replace (dgetd wc "b->cenue::cVL" 0%K) with z by reflexivity.
  replace (dgetd wc "b->cmunumu::cVL" 0%K) with z by reflexivity.
  destruct (kdec_spec K z z) as [_|N]; [reflexivity|congruence].
Qed.
Print Assumptions C62_tau_universality_refuted.

(* The SM values: the entry of the last relevant file that contains the name. *)
Theorem C62_sm_values : forall (K : StarField) (files : list (yamlfile K)) k, (forall f, In f files -> wfdict (y_entries f)) ->
  (dget (get_sm_wcs files) k = None <-> forall f, In f files -> y_relevant f = Some true -> dget (y_entries f) k = None) /\
  forall v, dget (get_sm_wcs files) k = Some v <->
    exists l1 f l2, files = l1 ++ f :: l2 /\ y_relevant f = Some true /\ dget (y_entries f) k = Some v /\
      forall g, In g l2 -> y_relevant g = Some true -> dget (y_entries g) k = None.
Proof.
  intros K files k. unfold get_sm_wcs. induction files as [|f files IH] using rev_ind; intros WF.
  - split; [split; [intros _ f []|reflexivity]|]. intros v. split; [discriminate|]. intros (l1 & f & l2 & E & _). destruct l1; discriminate.
  - rewrite fold_left_app. cbn [fold_left]. match goal with |- context [fold_left ?g files []] => set (d := fold_left g files []) in * end.
    destruct IH as [IH1 IH2]; [intros g Hg; apply WF, in_or_app; now left|].
    assert (KEEP : (y_relevant f = Some true -> dget (y_entries f) k = None) ->
      dget (match y_relevant f with Some true => dupdate d (y_entries f) | _ => d end) k = dget d k).
    { intros N. destruct (y_relevant f) as [[|]|]; auto. rewrite dget_dupdate by (apply WF, in_or_app; right; now left). now rewrite N. }
    assert (DEC : (y_relevant f = Some true /\ exists v, dget (y_entries f) k = Some v) \/ (y_relevant f = Some true -> dget (y_entries f) k = None)).
    { destruct (y_relevant f) as [[|]|]; [|right; discriminate|right; discriminate]. destruct (dget (y_entries f) k) as [v|]; [left; eauto|right; auto]. }
    destruct DEC as [(R & v0 & V0)|N].
    + assert (E : dget (match y_relevant f with Some true => dupdate d (y_entries f) | _ => d end) k = Some v0)
        by (rewrite R, dget_dupdate by (apply WF, in_or_app; right; now left); now rewrite V0).
      rewrite E. split; [split; [discriminate|]|].
      * intros H. rewrite (H f) in V0; [discriminate|apply in_or_app; right; now left|exact R].
      * intros v. split.
        { intros [= <-]. exists files, f, []. split; [reflexivity|]. split; [exact R|]. split; [exact V0|]. intros g []. }
        { intros (l1 & g & l2 & EQ & RG & VG & L). destruct l2 as [|h l2] using rev_ind.
          - apply app_inj_tail in EQ as [_ <-]. congruence.
          - clear IHl2. change (g :: l2 ++ [h]) with ((g :: l2) ++ [h]) in EQ. rewrite app_assoc in EQ. apply app_inj_tail in EQ as [_ <-].
            rewrite (L f) in V0; [discriminate|apply in_or_app; right; now left|exact R]. }
    + rewrite (KEEP N). split.
      * rewrite IH1. split; intros H g Hg; [|apply H, in_or_app; now left]. apply in_app_or in Hg as [Hg|[<-|[]]]; [now apply H|exact N].
      * intros v. rewrite IH2. split.
        { intros (l1 & g & l2 & -> & RG & VG & L). exists l1, g, (l2 ++ [f]). split; [now rewrite <- app_assoc|]. split; [exact RG|]. split; [exact VG|].
          intros h Hh. apply in_app_or in Hh as [Hh|[<-|[]]]; [now apply L|exact N]. }
        { intros (l1 & g & l2 & EQ & RG & VG & L). destruct l2 as [|h l2] using rev_ind.
          - apply app_inj_tail in EQ as [_ <-]. rewrite (N RG) in VG. discriminate.
          - clear IHl2. change (g :: l2 ++ [h]) with ((g :: l2) ++ [h]) in EQ. rewrite app_assoc in EQ. apply app_inj_tail in EQ as [EQ <-].
            exists l1, g, l2. split; [exact EQ|]. split; [exact RG|]. split; [exact VG|]. intros i Hi. apply L, in_or_app. now left. }
Qed.
Print Assumptions C62_sm_values.

(* inputs that meet the hypotheses *)
Example C62_case : let wc := [("b->smumu::c9", qi 1 2); ("b->cenue::cVL", qi 3 4); ("b->cmunumu::cVL", qi 3 4)] in
  let sm := [("b->smumu::Re{c9}", [("central", qi 4 0)]); ("b->smumu::Im{c9}", [("central", qi 0 0)]); ("b->clnu::Im{cVL}", [("central", qi 1 0)])] in
  wfdict sm /\ plain "b->smumu::" /\ plain "c9" /\ re_name "b->smumu::" "c9" = "b->smumu::Re{c9}" /\
  (forall k, In k (dkeys wc) -> plain k) /\ ("b->clnu::" ++ "cVL" = "b->c" ++ "lnu" ++ "::cVL")%string /\
  exists eosd, wcxf2eos (K := QI) wc sm = Ok eosd /\ dkeys eosd = dkeys sm /\
    option_map (fun w => dget w "min") (dget eosd "b->clnu::Im{cVL}") = Some (Some (qi 5 0)) /\
    option_map (fun w => dget w "max") (dget eosd "b->smumu::Re{c9}") = Some (Some (qi 5 0)).
Proof.
  cbv zeta. split; [apply knodup_NoDup; reflexivity|]. split; [split; reflexivity|]. split; [split; reflexivity|]. split; [reflexivity|].
  split; [intros k [<-|[<-|[<-|[]]]]; split; reflexivity|]. split; [reflexivity|].
  eexists. split; [vm_compute; reflexivity|]. split; [reflexivity|]. split; vm_compute; reflexivity.
Qed.
