(* the mirror image of a coefficient is unique within its sector *)
From Coq Require Import List Bool Arith Lia String Ascii PArith.
From Verif Require Import PyBase EftModel AdmData WetModel ParSpec ParData ParProofs.
Import ListNotations.
Local Open Scope string_scope.
Local Open Scope list_scope.

(* a number for each string, with the last characters in the lowest digits: two different labels differ early *)
Definition put (b : bool) (p : positive) : positive := if b then xI p else xO p.
Definition put_char (c : ascii) (p : positive) : positive :=
  match c with Ascii b0 b1 b2 b3 b4 b5 b6 b7 => put b0 (put b1 (put b2 (put b3 (put b4 (put b5 (put b6 (put b7 p))))))) end.
Fixpoint code_from (s : string) (p : positive) : positive := match s with EmptyString => p | String c r => code_from r (put_char c p) end.
Definition code (s : string) : positive := code_from s 1.
Definition uniq_key (codes : list positive) (pk : string) (k : string) : bool :=
  forallb (fun lc => String.eqb (fst lc) pk || let c := code (fst lc) in negb (existsb (Pos.eqb c) codes)) (mirror_labels k).
Definition sector_uniq (sa : string * list string) : bool :=
  match dget par_data (fst sa) with
  | None => true
  | Some d => let codes := map code (snd sa) in
      forallb (fun ak => uniq_key codes (nth (partner d (fst ak)) (snd sa) "") (snd ak)) (numbered (snd sa))
  end.
Lemma all_uniq : forallb sector_uniq coeffs = true.
Proof. vm_cast_no_check (eq_refl true). Qed.
Lemma mirror_in_labels k k' c : mirror k k' = Some c -> In (k', c) (mirror_labels k).
Proof.
  unfold mirror. destruct (existsb _ _) eqn:E.
  - intros H. injection H as <-. apply existsb_exists in E as ([l b] & I & T). cbn [fst snd] in T. apply andb_true_iff in T as [T1 T2].
    apply String.eqb_eq in T2. subst l. destruct b; [discriminate|exact I].
  - clear E. destruct (existsb _ _) eqn:E; [|discriminate]. intros H. injection H as <-. apply existsb_exists in E as ([l b] & I & T). cbn [fst snd] in T.
    apply andb_true_iff in T as [T1 T2]. apply String.eqb_eq in T2. subst l. destruct b; [exact I|discriminate].
Qed.
Lemma mirror_unique s all k k1 k2 c1 c2 : dget coeffs s = Some all -> dmem par_data s = true -> In k all -> In k1 all -> In k2 all ->
  mirror k k1 = Some c1 -> mirror k k2 = Some c2 -> k1 = k2 /\ c1 = c2.
Proof.
  intros EA PD IK I1 I2 M1 M2.
  assert (G : exists pk, forall k' c', In k' all -> mirror k k' = Some c' -> k' = pk).
  { pose proof all_uniq as T. rewrite forallb_forall in T. specialize (T _ (dget_In _ _ _ EA)). unfold sector_uniq in T. cbn [fst snd] in T.
    rewrite dmem_dget in PD. destruct (dget par_data s) as [d|]; [|discriminate]. cbv zeta in T. rewrite forallb_forall in T.
    destruct (In_nth _ _ "" IK) as (a & La & Ea). specialize (T _ (numbered_In all a "" La)). cbn [fst snd] in T. rewrite Ea in T.
    exists (nth (partner d a) all ""). intros k' c' I M. unfold uniq_key in T. rewrite forallb_forall in T. specialize (T _ (mirror_in_labels _ _ _ M)). cbn [fst snd] in T.
    apply orb_true_iff in T as [T|T]; [now apply String.eqb_eq|]. exfalso. apply negb_true_iff in T.
    assert (X : existsb (Pos.eqb (code k')) (map code all) = true); [|congruence]. apply existsb_exists. exists (code k'). split; [now apply in_map|apply Pos.eqb_refl]. }
  destruct G as (pk & G). assert (k1 = k2) by (rewrite (G _ _ I1 M1), (G _ _ I2 M2); reflexivity). subst k2. split; [reflexivity|congruence].
Qed.
