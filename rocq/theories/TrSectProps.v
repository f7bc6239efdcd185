(* C55: translations restricted to some sectors. *)
From Coq Require Import List Bool ZArith QArith Arith Lia String Ascii.
From Verif Require Import PyBase Num Lin SymModel SymClass SymSpec EftModel EftSpec EftProofs EftLabels EftRound EftInit JmsModel JmsSpec
  TrLang TrData TrBlocks TrModel TrNorm TrSpec AdmData BasisProps TrSectors.
Import ListNotations.
Local Open Scope string_scope.
Local Open Scope list_scope.

(* ss: any list of sectors of the JMS basis.  js: the sectors of the basis, with the
   coefficients of the table in definitions.py (sectors_ok). *)
(* The restricted translation returns, for every coefficient it names, the value of the full
   translation; if all non-zero coefficients of the input belong to the sectors ss, nothing is lost. *)
Theorem C55_JMS_to_flavio : forall (K : StarField) (p : tpar K) all real js ss (C : dict string K),
  par_ok p -> describes jms_ops all real -> sectors_ok js -> (forall x, In x ss -> In x (dkeys coeffs)) ->
  exists F F0, JMS_to_flavio p all js C (Some ss) = Ok F /\ JMS_to_flavio p all js C None = Ok F0 /\
    (forall k v, dget F k = Some v -> dget F0 k = Some v) /\
    (supported ss C -> forall k, dgetd F k 0%K = dgetd F0 k 0%K).
Proof. intros K p all real js ss C PO D SO HS. exact (fwd_restrict p PO all real D js SO ss C HS). Qed.
(* The restricted translation to JMS returns values of the full one, and all of them for the
   coefficients of the sectors ss. *)
Theorem C55_flavio_to_JMS : forall (K : StarField) (p : tpar K) all real flavio_wcs ss (C : dict string K),
  par_ok p -> describes jms_ops all real -> incl flavio_keys flavio_wcs -> (forall x, In x ss -> In x (dkeys coeffs)) ->
  exists J J0, flavio_to_JMS p all flavio_wcs C (Some ss) = Ok J /\ flavio_to_JMS p all flavio_wcs C None = Ok J0 /\
    (forall k v, dget J k = Some v -> dget J0 k = Some v) /\
    (forall k, In k (of_sectors ss) -> dget J k = dget J0 k).
Proof. intros K p all real flavio_wcs ss C PO D HF HS. exact (back_restrict p PO all real D flavio_wcs HF ss C HS). Qed.
(* The translators to Bern, EOS and FormFlavor accept sectors but restrict only their input
   arrays: unless sbsb is among the sectors they never return a result (KeyError, or nan). *)
Theorem C55_other_bases_refuted : forall (K : StarField) (p : tpar K) all real js ss (C B : dict string K),
  par_ok p -> describes jms_ops all real -> sectors_ok js -> (forall x, In x ss -> In x (dkeys coeffs)) -> ~ In "sbsb" ss ->
  JMS_to_Bern p all js C (Some ss) <> Ok B /\ JMS_to_EOS p all js C (Some ss) <> Ok B /\ JMS_to_FormFlavor p all js C (Some ss) <> Ok B.
Proof. intros K p all real js ss C B PO D SO HS NS. exact (fails_others p all real D js SO ss C B HS NS). Qed.

Example ex55 : sectors_ok coeffs /\ (forall x, In x ["sb"; "mue"] -> In x (dkeys coeffs)) /\ ~ In "sbsb" ["sb"; "mue"] /\
  supported (K := QI) ["sb"; "mue"] [("VedLL_2223", qi 1 2); ("VeeLL_1112", qi 3 1)].
Proof.
  split; [|split; [|split]].
  - intros s. unfold dgetd. destruct (dget coeffs s); [reflexivity|reflexivity].
  - intros x [<-|[<-|[]]]; apply kmem_In; vm_compute; reflexivity.
  - intros [X|[X|[]]]; discriminate.
  - intros k. unfold dgetd. cbn [dget]. destruct (keqb_spec k "VedLL_2223") as [->|]; [intros _; apply kmem_In; vm_compute; reflexivity|].
    destruct (keqb_spec k "VeeLL_1112") as [->|]; [intros _; apply kmem_In; vm_compute; reflexivity|]. intros X. now destruct X.
Qed.
Print Assumptions C55_JMS_to_flavio.
Print Assumptions C55_flavio_to_JMS.
Print Assumptions C55_other_bases_refuted.
