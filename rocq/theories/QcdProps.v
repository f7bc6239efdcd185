(* C40: the QCD functions reject unphysical arguments.
   C47: they compute in the requested flavour scheme. *)
From Coq Require Import List Bool ZArith QArith Qcanon Lia.
From Verif Require Import PyBase QcdModel.
Import ListNotations.
Local Open Scope Qc_scope.

(* ---------- specification ---------- *)
Definition is_call_to_code (c : call) : bool := match c with NewCRunDec => false | _ => true end.
(* the four functions, with the reference values they take from the caller *)
Inductive func := AlphaS | Mb (mbmb : Qc) | Mc (mcmc : Qc) | Ms (ms2 : Qc).
Definition run (ext : call -> Qc) (g : func) (scale f alphasMZ loop : Qc) : prog Qc :=
  match g with
  | AlphaS => alpha_s ext scale f alphasMZ loop
  | Mb m => m_b ext m scale f alphasMZ loop
  | Mc m => m_c ext m scale f alphasMZ loop
  | Ms m => m_s ext m scale f alphasMZ loop
  end.
(* numbers of flavours for which the function is defined *)
Definition flavours (g : func) : list Qc :=
  match g with
  | AlphaS | Mb _ => [q 3 1; q 4 1; q 5 1; q 6 1]
  | Mc _ | Ms _ => [q 3 1; q 4 1; q 5 1]
  end.
(* where the reference value is given, and the value returned there *)
Definition ref_scale (g : func) : Qc := match g with AlphaS => q 911876 10000 | Mb m => m | Mc m => m | Ms _ => q 2 1 end.
Definition ref_flavour (g : func) : Qc := match g with AlphaS | Mb _ => q 5 1 | Mc _ => q 4 1 | Ms _ => q 3 1 end.
Definition ref_value (g : func) (alphasMZ : Qc) : Qc := match g with AlphaS => alphasMZ | Mb m => m | Mc m => m | Ms m => m end.

(* ---------- lemmas ---------- *)
Lemma qleb_le x y : qleb x y = true <-> x <= y.
Proof. unfold qleb, Qcle. apply Qle_bool_iff. Qed.
Lemma qleb_gt x y : qleb x y = false <-> y < x.
Proof.
  destruct (qleb x y) eqn:E; split; intros H; try discriminate; auto.
  - apply qleb_le in E. exfalso. exact (Qclt_not_le _ _ H E).
  - apply Qcnot_le_lt. intros L. apply qleb_le in L. congruence.
Qed.
Lemma sane_bad scale f : scale <= 0 \/ f < q 3 1 \/ q 6 1 < f -> sane scale f = ([], Err ValueError).
Proof.
  unfold sane. intros H. destruct (qleb scale 0) eqn:E; [reflexivity|]. apply qleb_gt in E.
  destruct (qleb (q 3 1) f) eqn:E1; [|reflexivity]. destruct (qleb f (q 6 1)) eqn:E2; [|reflexivity].
  apply qleb_le in E1, E2. exfalso. destruct H as [H|[H|H]]; [exact (Qclt_not_le _ _ E H)|exact (Qclt_not_le _ _ H E1)|exact (Qclt_not_le _ _ H E2)].
Qed.
Lemma sane_ok scale f : 0 < scale -> q 3 1 <= f -> f <= q 6 1 -> sane scale f = ([], Ok tt).
Proof.
  unfold sane. intros H H1 H2. apply qleb_gt in H. apply qleb_le in H1, H2. rewrite H, H1, H2. reflexivity.
Qed.
Lemma seq_err {A B} e (f : A -> prog B) c : seq (c, Err e) f = (c, Err e).
Proof. reflexivity. Qed.
Lemma seq_nil {A B} (a : A) (f : A -> prog B) : seq ([], Ok a) f = f a.
Proof. unfold seq. cbn. now destruct (f a). Qed.
Lemma snd_seq {A B} (p : prog A) (f : A -> prog B) : snd (seq p f) = bind (snd p) (fun a => snd (f a)).
Proof. unfold seq. destruct p as [c [a|e]]; reflexivity. Qed.
Lemma keqb_qq (x y : Qc) : x <> y -> keqb x y = false.
Proof. apply keqb_neq. Qed.
Lemma in_range f : In f [q 3 1; q 4 1; q 5 1; q 6 1] -> q 3 1 <= f /\ f <= q 6 1.
Proof. cbn [In]. intros I. repeat (destruct I as [<-|I]; [split; apply qleb_le; vm_compute; reflexivity|]). destruct I. Qed.
Lemma sub_range g f : In f (flavours g) -> In f [q 3 1; q 4 1; q 5 1; q 6 1].
Proof. destruct g; cbn; tauto. Qed.

(* the early returns *)
Lemma run_ref ext g al loop : run ext g (ref_scale g) (ref_flavour g) al loop = ([], Ok (ref_value g al)).
Proof.
  destruct g; cbn [run ref_scale ref_flavour ref_value]; unfold alpha_s, m_b, m_c, m_s; [change MZ with (q 911876 10000)|..]; rewrite ?keqb_refl; reflexivity.
Qed.
Definition returns_early (g : func) (scale f : Qc) : Prop :=
  match g with Mc m => scale = m | _ => scale = ref_scale g /\ f = ref_flavour g end.

Lemma run_not_early ext g scale f al loop : ~ returns_early g scale f ->
  sane scale f = ([], Err ValueError) -> run ext g scale f al loop = ([], Err ValueError).
Proof.
  intros N S. destruct g; cbn [run returns_early ref_scale ref_flavour] in *; unfold alpha_s, m_b, m_c, m_s; rewrite ?S; change MZ with (q 911876 10000).
  1, 2, 4: destruct (keqb_spec scale (ref_scale AlphaS)) as [E|_]; cbn [ref_scale] in *.
  all: repeat match goal with |- context [keqb ?a ?b] => destruct (keqb_spec a b); cbn [andb]; subst end; try tauto; reflexivity.
Qed.

(* ---------- C40 ---------- *)
(* a scale that is not positive or a flavour number outside 3..6 is rejected before anything
   external is called, unless the arguments are the ones for which the reference is returned *)
Theorem C40_rejected ext g scale f alphasMZ loop :
  scale <= 0 \/ f < q 3 1 \/ q 6 1 < f -> ~ returns_early g scale f ->
  run ext g scale f alphasMZ loop = ([], Err ValueError).
Proof. intros H N. apply run_not_early; [exact N|now apply sane_bad]. Qed.

(* alpha_s always rejects them; m_b and m_s do if their reference scale is positive *)
Theorem C40_rejected_positive_reference ext g scale f alphasMZ loop :
  scale <= 0 \/ f < q 3 1 \/ q 6 1 < f -> 0 < ref_scale g -> (forall m, g <> Mc m) ->
  run ext g scale f alphasMZ loop = ([], Err ValueError).
Proof.
  intros H P NM. apply C40_rejected; [exact H|].
  assert (RF : q 3 1 <= ref_flavour g /\ ref_flavour g <= q 6 1) by (destruct g; split; apply qleb_le; vm_compute; reflexivity).
  assert (G : ~ (scale = ref_scale g /\ f = ref_flavour g)).
  { intros [-> ->]. destruct H as [H|[H|H]]; [exact (Qclt_not_le _ _ P H)|exact (Qclt_not_le _ _ H (proj1 RF))|exact (Qclt_not_le _ _ H (proj2 RF))]. }
  destruct g; auto. now destruct (NM mcmc).
Qed.

(* every flavour number that is not supported (also non-integer ones) gives ValueError *)
Definition vonly {A} (p : prog A) : Prop := forall e, snd p = Err e -> e = ValueError.
Definition never {A} (p : prog A) : Prop := forall v, snd p <> Ok v.
Lemma vo_seq {A B} (p : prog A) (f : A -> prog B) : vonly p -> (forall a, vonly (f a)) -> vonly (seq p f).
Proof. intros P F e. rewrite snd_seq. destruct (snd p) as [a|x] eqn:E; cbn; [apply F|]. intros [= <-]. now apply P. Qed.
Lemma vo_ret {A} (a : A) : vonly (ret a).
Proof. intros e [=]. Qed.
Lemma vo_raise {A} : vonly (raise (A := A) ValueError).
Proof. intros e [= <-]. reflexivity. Qed.
Lemma vo_invoke ext c : vonly (invoke ext c).
Proof. intros e [=]. Qed.
Lemma never_seq {A B} (p : prog A) (f : A -> prog B) : (forall a, never (f a)) -> never (seq p f).
Proof. intros F v. rewrite snd_seq. destruct (snd p); cbn; [apply F|discriminate]. Qed.
Lemma never_seq_l {A B} (p : prog A) (f : A -> prog B) : never p -> never (seq p f).
Proof. intros F v. rewrite snd_seq. destruct (snd p) eqn:E; cbn; [now destruct (F a)|discriminate]. Qed.
Lemma never_raise {A} e : never (raise (A := A) e).
Proof. intros v [=]. Qed.
Ltac vo := repeat first [apply vo_ret|apply vo_raise|apply vo_invoke|apply vo_seq; [|intros ?]|match goal with |- vonly (if ?b then _ else _) => destruct b end].
Lemma vo_alpha ext s f al loop : vonly (alpha_s ext s f al loop).
Proof. unfold alpha_s, sane. cbn zeta. vo. Qed.
Lemma only_value_error ext g scale f al loop : vonly (run ext g scale f al loop).
Proof. destruct g; cbn [run]; [apply vo_alpha|..]; unfold m_b, m_c, m_s, sane; cbn zeta; repeat first [apply vo_alpha|progress vo]. Qed.
Theorem C40_only_value_error ext g scale f alphasMZ loop :
  (exists v, snd (run ext g scale f alphasMZ loop) = Ok v) \/ snd (run ext g scale f alphasMZ loop) = Err ValueError.
Proof.
  destruct (snd (run ext g scale f alphasMZ loop)) as [v|e] eqn:E; [eauto|]. right. f_equal. exact (only_value_error _ _ _ _ _ _ _ E).
Qed.
Theorem C40_unsupported_flavour ext g scale f alphasMZ loop :
  ~ In f (flavours g) -> ~ returns_early g scale f -> snd (run ext g scale f alphasMZ loop) = Err ValueError.
Proof.
  intros NF NE. destruct (C40_only_value_error ext g scale f alphasMZ loop) as [[v E]|E]; [|exact E]. exfalso. revert v E.
  change (never (run ext g scale f alphasMZ loop)).
  assert (G : forall n, In n (flavours g) -> keqb f n = false) by (intros n I; apply keqb_qq; now intros ->).
  destruct g; cbn [run returns_early ref_scale ref_flavour flavours] in *; unfold alpha_s, m_b, m_c, m_s; cbn zeta;
    [| |rewrite (keqb_qq scale mcmc NE)|]; rewrite !G by (cbn [In]; tauto); rewrite ?andb_false_r.
  1: apply never_seq; intros _; apply never_seq; intros _; apply never_seq_l, never_raise.
  all: apply never_seq; intros _; apply never_seq; intros ?; apply never_seq; intros ?; apply never_raise.
Qed.

(* at the reference scale and flavour number the reference value is returned, and nothing is called *)
Theorem C40_reference ext g alphasMZ loop :
  run ext g (ref_scale g) (ref_flavour g) alphasMZ loop = ([], Ok (ref_value g alphasMZ)).
Proof. apply run_ref. Qed.
(* alpha_s never returns zero (rundec's signal of failure) unless it was given as the reference *)
Theorem C40_nonzero ext scale f alphasMZ loop v :
  snd (alpha_s ext scale f alphasMZ loop) = Ok v -> v <> 0 \/ v = alphasMZ.
Proof.
  unfold alpha_s. destruct (_ && _)%bool; [intros [= <-]; now right|]. rewrite !snd_seq. destruct (snd (sane scale f)); [|discriminate].
  cbn [bind snd invoke]. intros E. left. match type of E with bind ?x _ = _ => destruct x as [r|]; [|discriminate] end. cbn [bind] in E.
  destruct (keqb_spec r 0); [discriminate|]. cbn in E. congruence.
Qed.
(* m_c does not look at the flavour number if the scale is mcmc, nor at its sign: the claim that
   unsupported arguments are rejected is false of the code *)
Theorem C40_m_c_refuted : exists mcmc f, mcmc <= 0 /\ q 6 1 < f /\ forall ext alphasMZ loop,
  snd (m_c ext mcmc mcmc f alphasMZ loop) = Ok mcmc.
Proof.
  exists (q (-1) 1), (q 17 1). split; [apply qleb_le; reflexivity|]. split; [apply qleb_gt; reflexivity|].
  intros. unfold m_c. now rewrite keqb_refl.
Qed.
(* m_c and m_s reject f = 6 only after external calls were made *)
Lemma fst_seq_l {A B} (p : prog A) (f : A -> prog B) : existsb is_call_to_code (fst p) = true -> existsb is_call_to_code (fst (seq p f)) = true.
Proof. intros E. unfold seq. destruct (snd p); [|exact E]. cbn [fst]. now rewrite existsb_app, E. Qed.
Lemma fst_seq_r {A B} (p : prog A) (f : A -> prog B) a : snd p = Ok a -> existsb is_call_to_code (fst (f a)) = true -> existsb is_call_to_code (fst (seq p f)) = true.
Proof. intros E F. unfold seq. rewrite E. cbn [fst]. now rewrite existsb_app, F, orb_true_r. Qed.
Lemma q_neq a b : (Qnum (q a 1) =? Qnum (q b 1))%Z = false -> keqb (q a 1) (q b 1) = false.
Proof. intros E. apply keqb_qq. intros F. rewrite F, Z.eqb_refl in E. discriminate. Qed.
Theorem C40_late_refuted : exists g scale f, ~ In f (flavours g) /\ forall ext alphasMZ loop,
  existsb is_call_to_code (fst (run ext g scale f alphasMZ loop)) = true.
Proof.
  exists (Mc (q 13 10)), (q 100 1), (q 6 1). split.
  - intros I. cbn [flavours In] in I. repeat (destruct I as [I|I]; [apply keqb_eq in I; vm_compute in I; discriminate|]). destruct I.
  - intros. cbn [run]. unfold m_c. change (keqb (q 100 1) (q 13 10)) with false. cbv iota.
    rewrite sane_ok by (first [apply qleb_gt|apply qleb_le]; reflexivity). rewrite seq_nil. eapply fst_seq_r; [reflexivity|]. apply fst_seq_l.
    unfold alpha_s. change (keqb (q 13 10) MZ) with false. cbn [andb]. rewrite sane_ok by (first [apply qleb_gt|apply qleb_le]; reflexivity).
    rewrite seq_nil. eapply fst_seq_r; [reflexivity|]. apply fst_seq_l. reflexivity.
Qed.
Print Assumptions C40_rejected.
Print Assumptions C40_rejected_positive_reference.
Print Assumptions C40_only_value_error.
Print Assumptions C40_unsupported_flavour.
Print Assumptions C40_reference.
Print Assumptions C40_nonzero.
Print Assumptions C40_m_c_refuted.
Print Assumptions C40_late_refuted.
Example C40_case : ~ returns_early (Mb (q 42 10)) (q (-1) 1) (q 5 1) /\ ~ returns_early (Mc (q 13 10)) (q 5 1) (q 7 1) /\
  ~ In (q 7 2) (flavours AlphaS) /\ 0 < ref_scale (Ms (q 1 10)).
Proof.
  repeat split; cbn [returns_early ref_scale flavours In].
  - intros [E _]. apply keqb_eq in E. vm_compute in E. discriminate.
  - intros E. apply keqb_eq in E. vm_compute in E. discriminate.
  - intros I. repeat (destruct I as [I|I]; [apply keqb_eq in I; vm_compute in I; discriminate|]). destruct I.
Qed.

(* ---------- C47: the right flavour scheme ---------- *)
(* thresholds: mass (and scale) at which the n-th flavour is integrated out *)
Definition threshold (n : Z) : Qc := if (n =? 6)%Z then q 170 1 else if (n =? 5)%Z then q 48 10 else q 13 10.
Definition thr (n : Z) : triple := {| t_Mth := threshold n; t_muth := threshold n; t_nf := q n 1 |}.
(* An idealised theory: alpha n s is the coupling with n flavours at the scale s, mass n s the
   quark mass.  rundec is assumed to convert between them as documented. *)
Record rundec_ok (ext : call -> Qc) (alphasMZ loop : Qc) (alpha : Z -> Qc -> Qc) : Prop := {
  ro_ref : alpha 5%Z (q 911876 10000) = alphasMZ;
  ro_exact : forall n m s, (3 <= n <= 6)%Z -> ext (AlphasExact (alpha n m) m s (q n 1) loop) = alpha n s;
  ro_up : forall n m s, (4 <= n <= 6)%Z -> ext (AlL2AlH (alpha (n - 1)%Z m) m (thr n) s loop) = alpha n s;
  ro_down : forall n m s, (4 <= n <= 6)%Z -> ext (AlH2AlL (alpha n m) m (thr n) s loop) = alpha (n - 1)%Z s }.
Record mass_ok (ext : call -> Qc) (loop : Qc) (alpha mass : Z -> Qc -> Qc) : Prop := {
  mo_run : forall n s t, (3 <= n <= 6)%Z -> ext (MMS2mMS (mass n s) (alpha n s) (alpha n t) (q n 1) loop) = mass n t;
  mo_down : forall n s t, (4 <= n <= 6)%Z -> ext (MH2mL (mass n s) (alpha n s) s (thr n) t loop) = mass (n - 1)%Z t;
  mo_up : forall n s t, (4 <= n <= 6)%Z -> ext (ML2mH (mass (n - 1)%Z s) (alpha (n - 1)%Z s) s (thr n) t loop) = mass n t }.
(* the flavour numbers supported by each function *)
Definition supported (g : func) (n : Z) : Prop :=
  match g with AlphaS | Mb _ => (3 <= n <= 6)%Z | Mc _ | Ms _ => (3 <= n <= 5)%Z end.

Lemma q_range n : (3 <= n <= 6)%Z -> q 3 1 <= q n 1 /\ q n 1 <= q 6 1.
Proof.
  intros R. assert (E : n = 3%Z \/ n = 4%Z \/ n = 5%Z \/ n = 6%Z) by lia.
  destruct E as [->|[->|[->| ->]]]; split; apply qleb_le; reflexivity.
Qed.
Lemma alpha_ok ext al loop alpha n s : rundec_ok ext al loop alpha -> (3 <= n <= 6)%Z -> 0 < s -> alpha n s <> 0 ->
  snd (alpha_s ext s (q n 1) al loop) = Ok (alpha n s).
Proof.
  intros R Hn P NZ. destruct (q_range n Hn) as [L U].
  pose proof (ro_exact _ _ _ _ R) as RE. pose proof (ro_up _ _ _ _ R) as RU. pose proof (ro_down _ _ _ _ R) as RD. pose proof (ro_ref _ _ _ _ R) as R0.
  fold MZ in R0. unfold alpha_s. rewrite (sane_ok s (q n 1) P L U). rewrite seq_nil. rewrite <- R0.
  assert (Z0 : keqb (alpha n s) 0 = false) by now apply keqb_qq.
  assert (E : n = 3%Z \/ n = 4%Z \/ n = 5%Z \/ n = 6%Z) by lia.
  assert (G : forall r : prog Qc, snd r = Ok (alpha n s) ->
    snd (seq (invoke ext NewCRunDec) (fun _ => seq r (fun v => if keqb v 0 then raise ValueError else ret v))) = Ok (alpha n s)).
  { intros r Er. rewrite !snd_seq. cbn [bind snd invoke]. rewrite Er. cbn [bind]. rewrite Z0. reflexivity. }
  destruct E as [->|[->|[->| ->]]]; rewrite ?keqb_refl, ?(q_neq 3 5), ?(q_neq 4 5), ?(q_neq 6 5), ?(q_neq 3 6), ?(q_neq 4 6), ?(q_neq 3 4) by reflexivity;
    rewrite ?andb_false_r, ?andb_true_r.
  - apply G. rewrite snd_seq. cbn [bind snd invoke]. f_equal.
    change ({| t_Mth := q 48 10; t_muth := q 48 10; t_nf := q 5 1 |}) with (thr 5). rewrite RD by lia. change (5 - 1)%Z with 4%Z.
    change ({| t_Mth := q 13 10; t_muth := q 13 10; t_nf := q 4 1 |}) with (thr 4). apply (RD 4%Z). lia.
  - apply G. cbn [snd invoke]. f_equal. apply (RD 5%Z). lia.
  - destruct (keqb_spec s MZ) as [->|_]; [reflexivity|]. apply G. cbn [snd invoke]. f_equal. apply (RE 5%Z). lia.
  - apply G. cbn [snd invoke]. f_equal. apply (RU 6%Z). lia.
Qed.

(* alpha_s(scale, n) is the n-flavour coupling *)
Theorem C47_alpha_s ext alphasMZ loop alpha n scale :
  rundec_ok ext alphasMZ loop alpha -> supported AlphaS n -> 0 < scale -> alpha n scale <> 0 ->
  snd (alpha_s ext scale (q n 1) alphasMZ loop) = Ok (alpha n scale).
Proof. apply alpha_ok. Qed.
(* the masses are the n-flavour masses, if the reference value is the mass at the reference *)
Theorem C47_masses ext g alphasMZ loop alpha mass n scale :
  rundec_ok ext alphasMZ loop alpha -> mass_ok ext loop alpha mass ->
  (forall k s, (3 <= k <= 6)%Z -> In s [ref_scale g; q 13 10; scale] -> alpha k s <> 0) ->
  g <> AlphaS -> supported g n -> 0 < scale -> 0 < ref_scale g ->
  (forall k, q k 1 = ref_flavour g -> mass k (ref_scale g) = ref_value g alphasMZ) ->
  (forall m, g = Mc m -> scale = m -> n = 4%Z) ->
  snd (run ext g scale (q n 1) alphasMZ loop) = Ok (mass n scale).
Proof.
  intros R MO NZ NA SU P PR RV NE. assert (Hn : (3 <= n <= 6)%Z) by (destruct g; cbn in SU; lia).
  destruct (q_range n Hn) as [L U].
  pose proof (mo_run _ _ _ _ MO) as RE. pose proof (mo_up _ _ _ _ MO) as RU. pose proof (mo_down _ _ _ _ MO) as RD.
  assert (AO : forall k s, (3 <= k <= 6)%Z -> 0 < s -> In s [ref_scale g; q 13 10; scale] -> snd (alpha_s ext s (q k 1) alphasMZ loop) = Ok (alpha k s)).
  { intros k s Hk Ps I. apply alpha_ok; auto. }
  assert (Pmc : 0 < q 13 10) by (apply qleb_gt; reflexivity).
  assert (E : n = 3%Z \/ n = 4%Z \/ n = 5%Z \/ n = 6%Z) by lia.
  assert (G : forall (A : Type) (p : prog A) (f : A -> prog Qc) a, snd p = Ok a -> snd (f a) = Ok (mass n scale) -> snd (seq p f) = Ok (mass n scale)).
  { intros A p f a E1 E2. rewrite snd_seq, E1. exact E2. }
  destruct g; cbn [run ref_scale ref_flavour ref_value supported] in *; [congruence|..].
  - specialize (RV 5%Z eq_refl). unfold m_b. rewrite (sane_ok scale (q n 1) P L U). cbn zeta.
    destruct E as [->|[->|[->| ->]]]; rewrite ?keqb_refl, ?(q_neq 3 5), ?(q_neq 4 5), ?(q_neq 6 5), ?(q_neq 6 4), ?(q_neq 6 3), ?(q_neq 3 4) by reflexivity; rewrite ?andb_false_r, ?andb_true_r.
    + rewrite seq_nil. eapply G; [apply AO; [lia|exact PR|cbn; tauto]|]. eapply G; [reflexivity|]. eapply G; [reflexivity|].
      eapply G; [apply AO; [lia|exact Pmc|cbn; tauto]|]. cbn [snd invoke]. f_equal. rewrite <- RV at 1.
      change ({| t_Mth := q 48 10; t_muth := q 48 10; t_nf := q 5 1 |}) with (thr 5). rewrite RD by lia. apply (RD 4%Z). lia.
    + rewrite seq_nil. eapply G; [apply AO; [lia|exact PR|cbn; tauto]|]. eapply G; [reflexivity|]. cbn [snd invoke]. f_equal. rewrite <- RV at 1. apply (RD 5%Z). lia.
    + destruct (keqb_spec scale mbmb) as [->|_]; [cbn; now rewrite RV|].
      rewrite seq_nil. eapply G; [apply AO; [lia|exact PR|cbn; tauto]|]. eapply G; [reflexivity|]. eapply G; [apply AO; [lia|exact P|cbn; tauto]|].
      cbn [snd invoke]. f_equal. rewrite <- RV at 1. apply (RE 5%Z). lia.
    + rewrite seq_nil. eapply G; [apply AO; [lia|exact PR|cbn; tauto]|]. eapply G; [reflexivity|]. cbn [snd invoke]. f_equal. rewrite <- RV at 1. apply (RU 6%Z). lia.
  - specialize (RV 4%Z eq_refl). unfold m_c. rewrite (sane_ok scale (q n 1) P L U). cbn zeta. rewrite !seq_nil.
    destruct (keqb_spec scale mcmc) as [->|_].
    { rewrite (NE mcmc eq_refl eq_refl), RV. reflexivity. }
    destruct E as [->|[->|[->| ->]]]; [| | |lia]; rewrite ?keqb_refl, ?(q_neq 3 4), ?(q_neq 5 4), ?(q_neq 5 3) by reflexivity.
    + eapply G; [reflexivity|]. eapply G; [apply AO; [lia|exact PR|cbn; tauto]|]. cbn [snd invoke]. f_equal. rewrite <- RV at 1. apply (RD 4%Z). lia.
    + eapply G; [reflexivity|]. eapply G; [apply AO; [lia|exact PR|cbn; tauto]|]. eapply G; [apply AO; [lia|exact P|cbn; tauto]|].
      cbn [snd invoke]. f_equal. rewrite <- RV at 1. apply (RE 4%Z). lia.
    + eapply G; [reflexivity|]. eapply G; [apply AO; [lia|exact PR|cbn; tauto]|]. cbn [snd invoke]. f_equal. rewrite <- RV at 1. apply (RU 5%Z). lia.
  - specialize (RV 3%Z eq_refl). unfold m_s. rewrite (sane_ok scale (q n 1) P L U). cbn zeta. rewrite !seq_nil.
    destruct E as [->|[->|[->| ->]]]; [| | |lia]; rewrite ?keqb_refl, ?(q_neq 4 3), ?(q_neq 5 4), ?(q_neq 5 3) by reflexivity; rewrite ?andb_false_r, ?andb_true_r.
    + destruct (keqb_spec scale (q 2 1)) as [->|_]; [cbn; now rewrite RV|].
      eapply G; [reflexivity|]. eapply G; [apply AO; [lia|exact PR|cbn; tauto]|]. eapply G; [apply AO; [lia|exact P|cbn; tauto]|].
      cbn [snd invoke]. f_equal. rewrite <- RV. apply (RE 3%Z). lia.
    + eapply G; [reflexivity|]. eapply G; [apply AO; [lia|exact PR|cbn; tauto]|]. cbn [snd invoke]. f_equal. rewrite <- RV. apply (RU 4%Z). lia.
    + eapply G; [reflexivity|]. eapply G; [apply AO; [lia|exact PR|cbn; tauto]|]. eapply G; [reflexivity|].
      eapply G; [apply AO; [lia|exact Pmc|cbn; tauto]|]. cbn [snd invoke]. f_equal. rewrite <- RV.
      change ({| t_Mth := q 13 10; t_muth := q 13 10; t_nf := q 4 1 |}) with (thr 4). rewrite (RU 4%Z) by lia. apply (RU 5%Z). lia.
Qed.

(* a theory that meets the contracts: the coupling is n, the mass is n *)
Definition ex47_ext (c : call) : Qc :=
  match c with
  | NewCRunDec => 0
  | AlphasExact a _ _ _ _ => a
  | AlL2AlH a _ _ _ _ => a + 1
  | AlH2AlL a _ _ _ _ => a - 1
  | MMS2mMS m _ _ _ _ => m
  | MH2mL m _ _ _ _ _ => m - 1
  | ML2mH m _ _ _ _ _ => m + 1
  end.
Lemma q_pred n : q n 1 - 1 = q (n - 1) 1.
Proof. apply Qc_is_canon. unfold q, Qcminus, Qcplus, Qcopp, Q2Qc. cbn [this]. rewrite !Qred_correct. unfold Qeq, Qplus, Qopp; cbn. lia. Qed.
Example C47_case : rundec_ok ex47_ext (q 5 1) (q 3 1) (fun n _ => q n 1) /\ mass_ok ex47_ext (q 3 1) (fun n _ => q n 1) (fun n _ => q n 1) /\
  (forall k, (3 <= k <= 6)%Z -> q k 1 <> 0) /\ (forall k, q k 1 = q 5 1 -> q k 1 = ref_value (Mb (q 5 1)) (q 5 1)).
Proof.
  assert (S : forall n, q (n - 1) 1 + 1 = q n 1) by (intros n; rewrite <- q_pred; ring).
  split; [constructor; cbn [ex47_ext]; intros; auto using q_pred|]. split; [constructor; cbn [ex47_ext]; intros; auto using q_pred|].
  split; [|auto]. intros k Hk. assert (E : k = 3%Z \/ k = 4%Z \/ k = 5%Z \/ k = 6%Z) by lia.
  destruct E as [->|[->|[->| ->]]]; intros F; apply keqb_eq in F; vm_compute in F; discriminate.
Qed.
(* m_c at the scale mcmc returns the four-flavour mass for any requested flavour number *)
Theorem C47_m_c_refuted : exists ext alphasMZ loop alpha mass mcmc,
  rundec_ok ext alphasMZ loop alpha /\ mass_ok ext loop alpha mass /\ mass 4%Z mcmc = mcmc /\
  (forall k s, (3 <= k <= 6)%Z -> alpha k s <> 0) /\ 0 < mcmc /\
  exists v, snd (m_c ext mcmc mcmc (q 3 1) alphasMZ loop) = Ok v /\ v <> mass 3%Z mcmc.
Proof.
  destruct C47_case as (C1 & C2 & C3 & _).
  exists ex47_ext, (q 5 1), (q 3 1), (fun n _ => q n 1), (fun n _ => q n 1), (q 4 1).
  split; [exact C1|]. split; [exact C2|]. split; [reflexivity|]. split; [auto|]. split; [apply qleb_gt; reflexivity|].
  exists (q 4 1). split; [reflexivity|]. intros F. apply keqb_eq in F. vm_compute in F. discriminate.
Qed.
Print Assumptions C47_alpha_s.
Print Assumptions C47_masses.
Print Assumptions C47_m_c_refuted.
