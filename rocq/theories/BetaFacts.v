(* Facts about beta.py obtained by running boolean checks on its normal form. *)
From Coq Require Import List Bool ZArith QArith Arith Lia String Ascii.
From Verif Require Import PyBase Num SymModel EftModel EftProofs NpModel NpProofs BetaModel BetaProg BetaNorm BetaSpec BetaSound BetaCov.
Import ListNotations.
Local Open Scope string_scope.
Local Open Scope list_scope.

(* a check of the normal forms of all entries *)
Definition all_entries (o : option (dict string nform)) (chk : string -> nform -> bool) : bool :=
  match o with Some R => forallb (fun p => chk (fst p) (snd p)) R | None => false end.
Definition has_keys (o : option (dict string nform)) (ks : list string) : bool :=
  match o with Some R => forallb (fun k => dmem R k) ks && forallb (fun p => kmem (fst p) ks) R | None => false end.
Definition beta_nf (np : bool) : option (dict string nform) := norm_beta op_rank np beta_prog.
Definition rank_ok (k : string) (n : nform) : bool := match op_rank k with Some r => Nat.eqb r (fst n) | None => false end.
Lemma all_entries_spec o chk : all_entries o chk = true -> exists R, o = Some R /\ forall k n, dget R k = Some n -> chk k n = true.
Proof.
  destruct o as [R|]; [|discriminate]. intros F. exists R. split; [reflexivity|].
  intros k n E. cbn [all_entries] in F. rewrite forallb_forall in F. apply dget_In in E. exact (F _ E).
Qed.
Lemma all_entries_at o R chk k n : all_entries o chk = true -> o = Some R -> dget R k = Some n -> chk k n = true.
Proof. intros F -> E. cbn [all_entries] in F. rewrite forallb_forall in F. apply dget_In in E. exact (F _ E). Qed.
Lemma has_keys_at o R ks : has_keys o ks = true -> o = Some R ->
  (forall k, In k ks -> exists n, dget R k = Some n) /\ (forall k n, dget R k = Some n -> In k ks).
Proof.
  intros F ->. cbn [has_keys] in F. apply andb_true_iff in F as [K1 K2]. rewrite forallb_forall in K1, K2. split.
  - intros k Hk. specialize (K1 k Hk). unfold dmem in K1. apply kmem_In in K1.
    destruct (dget R k) as [n|] eqn:E; [eauto|apply dget_None in E; contradiction].
  - intros k n E. specialize (K2 _ (dget_In _ _ _ E)). cbn [fst] in K2. now apply kmem_In in K2.
Qed.
Lemma beta_keys : has_keys (beta_nf true) (dkeys op_fields) = true. Proof. vm_compute. reflexivity. Qed.
Lemma beta_sm_keys : has_keys (beta_nf false) (dkeys sm_fields) = true. Proof. vm_compute. reflexivity. Qed.
Lemma beta_rank : all_entries (beta_nf true) rank_ok = true. Proof. vm_compute. reflexivity. Qed.
Lemma beta_sm_rank : all_entries (beta_nf false) rank_ok = true. Proof. vm_compute. reflexivity. Qed.
Definition typed_or (ex : list string) (k : string) (n : nform) : bool :=
  if kmem k ex then true else match dget op_fields k with Some ts => n_typed ts n | None => false end.
Lemma beta_typed : all_entries (beta_nf true) (typed_or ["dphi"]) = true. Proof. vm_compute. reflexivity. Qed.
