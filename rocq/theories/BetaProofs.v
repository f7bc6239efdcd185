(* From the normal forms to statements about beta. *)
From Coq Require Import List Bool ZArith QArith Arith Lia String Ascii Permutation.
From Verif Require Import PyBase Num SymModel EftModel EftSpec EftProofs EftProps NpModel NpProofs BetaModel BetaProg BetaNorm BetaSpec BetaSound BetaCov BetaFacts.
Import ListNotations.
Local Open Scope string_scope.
Local Open Scope list_scope.

Section P.
Context {K : StarField}.
Local Open Scope K_scope.
Add Field KFbp : (k_field K).
Notation cdict := (dict string (cval K)).

Lemma map_const_repeat {A} (ts : list A) : map (fun _ => 3%nat) ts = repeat 3%nat (List.length ts).
Proof. induction ts as [|t ts IH]; [reflexivity|]. cbn [map List.length repeat]. now rewrite IH. Qed.
Lemma indices_of_idxs k ts : dget op_fields k = Some ts -> indices_of k = idxs (List.length ts).
Proof. intros E. unfold indices_of. rewrite E, map_const_repeat. reflexivity. Qed.
Lemma smeft_point_shaped (C : cdict) : smeft_point C -> well_shaped op_rank C.
Proof.
  intros P k r. unfold op_rank. destruct (dget op_fields k) as [ts|] eqn:E; [|discriminate]. intros [= <-].
  destruct (P k ts E) as (v & V & S & Z). exists v. rewrite map_const_repeat in S. split; [exact V|]. split; [exact S|].
  intros L. apply Z. now apply length_zero_iff_nil.
Qed.

(* what is known about one entry of the result *)
Definition entry_ok (C D : cdict) (H : K) (R : dict string nform) (k : string) : Prop :=
  exists ts v n, dget op_fields k = Some ts /\ dget D k = Some v /\ dget R k = Some n /\ wf_n n /\ fst n = List.length ts /\
    rep v (List.length ts) (nval (venv C H) n).
Lemma locals_entry o ks (C D : cdict) H R : o = Some R ->
  has_keys o ks = true -> all_entries o rank_ok = true -> locals_ok C H D R -> (forall k, In k ks -> entry_ok C D H R k) /\
  (forall k n, dget R k = Some n -> In k ks).
Proof.
  intros NB KS RK LO. destruct (has_keys_at o R ks KS NB) as [K1 K2]. split; [|exact K2].
  intros k Hk. destruct (K1 k Hk) as (n & E). pose proof (all_entries_at o R _ k n RK NB E) as RK'. unfold rank_ok, op_rank in RK'.
  destruct (dget op_fields k) as [ts|] eqn:ET; [|discriminate]. apply Nat.eqb_eq in RK'.
  destruct (LO k n E) as (v & V & W & RP). exists ts, v, n. rewrite <- RK' in RP. repeat split; auto; apply RP.
Qed.

Theorem beta_entries (E : eft) (C : cdict) H : smeft_point C -> H <> 0 ->
  exists R D, beta_nf true = Some R /\ beta_of E beta_prog C H true = Ok D /\
    (forall k, In k (dkeys op_fields) -> entry_ok C D H R k) /\ (forall k, ~ In k (dkeys op_fields) -> dget D k = None).
Proof.
  intros P N. destruct (all_entries_spec _ _ beta_rank) as (R & NB & _). exists R.
  destruct (beta_sound op_rank C H (smeft_point_shaped C P) N E beta_prog R NB) as (D & ED & LO & NO).
  exists D. split; [exact NB|]. split; [exact ED|].
  destruct (locals_entry _ _ C D H R NB beta_keys beta_rank LO) as [A B]. split; [exact A|].
  intros k NI. apply NO. destruct (dget R k) eqn:Q; [|reflexivity]. elim NI. eapply B; eauto.
Qed.
Lemma entry_ok_coef (C D : cdict) H R k : entry_ok C D H R k ->
  exists ts n, dget op_fields k = Some ts /\ dget R k = Some n /\ fst n = List.length ts /\ wf_n n /\
    forall I, In I (indices_of k) -> coef D k I = nval (venv C H) n I.
Proof.
  intros (ts & v & n & T & V & N & W & L & RP). exists ts, n. split; [exact T|]. split; [exact N|]. split; [exact L|]. split; [exact W|].
  intros I HI. rewrite (indices_of_idxs k ts T) in HI. unfold coef. rewrite V. now apply RP.
Qed.
Lemma entries_point (C D : cdict) H R : (forall k, In k (dkeys op_fields) -> entry_ok C D H R k) -> smeft_point D.
Proof.
  intros A k ts T. destruct (A k (dget_Some_key _ _ _ T)) as (ts' & v & n & T' & V & _ & _ & L & RP).
  rewrite T in T'. injection T' as <-. exists v. split; [exact V|]. split; [rewrite map_const_repeat; apply RP|].
  intros ->. exists (nval (venv C H) n []). now apply rep_0 in RP.
Qed.

(* ---------- values of monomials at two points ---------- *)
Lemma fval_agree (V W : fname -> idx -> K) z f : V (fst (fst f)) (map (fun l => nth l z 0%nat) (snd f)) = W (fst (fst f)) (map (fun l => nth l z 0%nat) (snd f)) ->
  fval V z f = fval W z f.
Proof. unfold fval. now intros ->. Qed.
Lemma mval_agree (V W : fname -> idx -> K) m I :
  (forall f z, In f (m_f m) -> (forall x, In x z -> (x < 3)%nat) -> fval V z f = fval W z f) -> (forall x, In x I -> (x < 3)%nat) ->
  mval V m I = mval W m I.
Proof.
  intros A HI. unfold mval. f_equal. apply ksum_ext. intros x Hx. apply kprod_ext. intros f Hf. apply A; [exact Hf|].
  intros y Y. apply in_app_iff in Y as [Y|Y]; [now apply HI|]. apply in_idxs in Hx. now apply Hx.
Qed.

(* every factor of a parameter has as many letters as the parameter has indices *)
Definition arity_ok (f : fac) : bool :=
  match fst (fst f) with FC k => match dget op_fields k with Some ts => Nat.eqb (List.length (snd f)) (List.length ts) | None => false end | _ => true end.
Lemma same_fval (C C' : cdict) H z f : arity_ok f = true -> (forall x, In x z -> (x < 3)%nat) ->
  (forall k, fst (fst f) = FC k -> same k C C') -> fval (venv C H) z f = fval (venv C' H) z f.
Proof.
  intros A HZ S. apply fval_agree. destruct f as [[n c] L]. cbn [fst snd] in *. unfold arity_ok in A. cbn [fst snd] in A.
  destruct n as [k| | |]; try reflexivity. cbn [venv]. specialize (S k eq_refl). apply S.
  destruct (dget op_fields k) as [ts|] eqn:T; [|discriminate]. apply Nat.eqb_eq in A. rewrite (indices_of_idxs k ts T).
  apply in_idxs. rewrite map_length. split; [exact A|]. intros x X. apply in_map_iff in X as (l & <- & _). now apply nth_lt3.
Qed.

(* ---------- rotations ---------- *)
Lemma rotprod_conj (U : field -> nat -> nat -> K) ts : forall J I, rotprod U (map flip ts) J I = (rotprod U ts J I)^*.
Proof.
  induction ts as [|t ts IH]; intros J I; [cbn; now rewrite kconj_1|].
  destruct J as [|j J], I as [|i I]; cbn [map rotprod]; try now rewrite kconj_1.
  rewrite IH, R_flip, kconj_mul. reflexivity.
Qed.
Lemma in_idxs_0 I : In I (idxs 0) -> I = [].
Proof. intros [<-|[]]. reflexivity. Qed.
Lemma rot_law (U : field -> nat -> nat -> K) (C C' : cdict) H ts f t : (forall f, unitary3 (U f)) ->
  rotated_point U C C' -> fac_slots ts f = Some t -> law U (venv C H) (venv C' H) ts f t.
Proof.
  intros HU RP FS I HI. destruct f as [[n c] L]. unfold fval0. cbn [fst snd]. destruct n as [k| | |].
  - cbn [fac_slots] in FS. destruct (dget op_fields k) as [tk|] eqn:T; [|discriminate]. injection FS as <-.
    assert (LT : List.length (if c then map flip tk else tk) = List.length tk) by (destruct c; [apply map_length|reflexivity]).
    rewrite LT in HI |- *. cbn [venv].
    assert (E : coef C' k I = rot U tk (coef C k) I) by (apply RP; [exact T|now rewrite (indices_of_idxs k tk T)]).
    change (coef C' k I) with (venv C' H (FC k) I) in E. cbn [venv] in E. rewrite E.
    unfold rot. fold (idxs (List.length tk)). destruct c; [|reflexivity].
    rewrite ksum_conj. apply ksum_ext. intros J _. rewrite kconj_mul, rotprod_conj. reflexivity.
  - cbn [fac_slots] in FS. destruct L as [|a [|b [|]]]; try discriminate.
    assert (G : exists s, t = [s; flip s] \/ t = [flip s; s]).
    { destruct (nth_error ts a) as [s|]; [injection FS as <-; eauto|]. destruct (nth_error ts b) as [s|]; [injection FS as <-; eauto|discriminate]. }
    assert (CC : forall x : K, (x = 1 \/ x = 0) -> (if c then x^* else x) = x).
    { intros x [-> | ->]; destruct c; try reflexivity; [apply kconj_1|apply kconj_0]. }
    assert (V01 : forall J, venv C H FI3 J = 1 \/ venv C H FI3 J = 0).
    { intros J. cbn [venv]. destruct (Nat.eqb (nth 0 J 0%nat) (nth 1 J 0%nat)); auto. }
    change (venv C' H FI3 I) with (venv C H FI3 I). rewrite CC by apply V01.
    rewrite (ksum_ext _ (fun J => rotprod U t J I * venv C H FI3 J)) by (intros; now rewrite CC by apply V01).
    assert (L2 : List.length t = 2%nat) by (destruct G as (s & [-> | ->]); reflexivity). rewrite L2 in HI |- *.
    apply in_idxs_2 in HI as (i & j & -> & Hi & Hj). change (venv C H FI3 [i; j]) with (delta i j : K).
    transitivity (ksum (map (fun v => rotprod U t [v; v] [i; j]) (seq 0 3))).
    + assert (W : forall s, ksum (map (fun v => rotprod U [s; flip s] [v; v] [i; j]) (seq 0 3)) = delta i j).
      { intros s. rewrite <- (R_unit U HU s i j Hi Hj). apply ksum_ext. intros v _. cbn [rotprod]. ring. }
      assert (FF : forall s, flip (flip s) = s) by (intros [f x]; unfold flip; cbn; now rewrite negb_involutive).
      destruct G as (s & [-> | ->]); [now rewrite W|]. pose proof (W (flip s)) as W'. rewrite FF in W'. now rewrite W'.
    + change (idxs 2) with [[0;0];[0;1];[0;2];[1;0];[1;1];[1;2];[2;0];[2;1];[2;2]]%nat.
      cbn [map seq venv nth Nat.eqb]. rewrite !ksum_cons. change (ksum (@nil K)) with (0 : K). ring.
  - cbn [fac_slots] in FS. injection FS as <-. cbn in HI |- *. apply in_idxs_0 in HI. subst I. unfold ksum. cbn. ring.
  - cbn [fac_slots] in FS. injection FS as <-. cbn in HI |- *. apply in_idxs_0 in HI. subst I. unfold ksum. cbn. ring.
Qed.
End P.
