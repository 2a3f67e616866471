(** * Properties of loaders that pick by name (C214-C216). *)

From Coq Require Import String List ZArith QArith Bool Arith Lia.
From Verif Require Import Prelude PreludeFacts SpecBase SpecBaseFacts Pick_Model.
Import ListNotations.
Open Scope string_scope.

(** ** C214: parsers of the German time use survey *)

(** The types of activities with transition matrices, and the dictionary they use. *)
Inductive chain_type : string -> option book -> Prop :=
| Four : chain_type "4_States" None
| Demod : chain_type "DemodActivities_0" (Some GTOU_label_to_activity)
| Botta : chain_type "Bottaccioli2018" (Some GTOU_label_to_Bottaccioli_act).

Definition job_book (j : job) : option book := match j with Activities b _ _ _ => Some b | _ => None end.
Definition job_durations (j : job) : bool := match j with FourStates _ d => d | Activities _ _ _ d => d | SparseNine => false end.

Ltac types ty := destruct (String.eqb_spec ty "4_States") as [->|]; [|destruct (String.eqb_spec ty "DemodActivities_0") as [->|]; [|destruct (String.eqb_spec ty "Bottaccioli2018") as [->|]]].

(** Both parsers of matrices know the same types, read them with the same dictionary, which
    is also the one of the statistics; one asks for durations and the other one does not. *)
Theorem C214_chains : forall ty b, chain_type ty b ->
  exists j k, parse_tpm ty = Ok j /\ parse_tpm_with_duration ty = Ok k /\ job_book j = b /\ job_book k = b /\
    job_durations j = false /\ job_durations k = true /\ in_book (rawdata_info ty) = b /\
    (forall first d, (j = FourStates first d \/ k = FourStates first d) -> first = "last") /\
    (forall bk first away d, (j = Activities bk first away d -> first = "last" /\ away = true /\ in_away (rawdata_info ty) = true /\ in_secondary (rawdata_info ty) = true) /\
                             (k = Activities bk first away d -> first = "nothing" /\ away = true)).
Proof.
  intros ty b []; eexists; eexists; (split; [reflexivity|]); (split; [reflexivity|]); repeat (split; [reflexivity|]);
    (split; [intros first d [H|H]; first [discriminate H|injection H as <- <-; reflexivity]|]); intros bk first away d; split; intro H; try discriminate H; injection H as <- <- <- <-; repeat split.
Qed.

(** Any other type has no matrices; sparse matrices are those of Sparse9States only, which has
    no others; statistics of unknown types use no dictionary and add no state. *)
Theorem C214_others : forall ty, (forall b, ~ chain_type ty b) ->
  parse_tpm ty = Err NotImplementedError /\ parse_tpm_with_duration ty = Err NotImplementedError /\ rawdata_info ty = Info None false false.
Proof.
  intros ty N. unfold parse_tpm, parse_tpm_with_duration, rawdata_info. cbv zeta. cbn [dget].
  destruct (String.eqb_spec ty "4_States") as [->|]; [destruct (N _ Four)|]. destruct (String.eqb_spec ty "DemodActivities_0") as [->|]; [destruct (N _ Demod)|].
  destruct (String.eqb_spec ty "Bottaccioli2018") as [->|]; [destruct (N _ Botta)|]. repeat split.
Qed.

Theorem C214_sparse : forall ty, (parse_sparse_tpm ty = Ok SparseNine <-> ty = "Sparse9States") /\
  (ty <> "Sparse9States" -> parse_sparse_tpm ty = Err NotImplementedError) /\
  (forall j k, parse_sparse_tpm ty = Ok j -> parse_tpm ty = Ok k -> False).
Proof.
  intro ty. unfold parse_sparse_tpm. destruct (String.eqb_spec ty "Sparse9States") as [->|N].
  - split; [tauto|]. split; [congruence|]. intros j k _ H. discriminate H.
  - split; [split; [discriminate|contradiction]|]. split; [reflexivity|]. discriminate.
Qed.

(** The versions of the German dataset: each has exactly one kind of matrices. *)
Theorem C214_germany : forall version ty, germany_type version = Ok ty ->
  (version = "v0.1" /\ ty = "Sparse9States" /\ parse_sparse_tpm ty = Ok SparseNine /\ parse_tpm ty = Err NotImplementedError /\ parse_tpm_with_duration ty = Err NotImplementedError) \/
  (version = "vBottaccioli" /\ ty = "Bottaccioli2018" /\ chain_type ty (Some GTOU_label_to_Bottaccioli_act) /\ parse_sparse_tpm ty = Err NotImplementedError).
Proof.
  intros version ty H. unfold germany_type in H. destruct (String.eqb_spec version "v0.1") as [->|]; [injection H as <-; left; repeat split|].
  destruct (String.eqb_spec version "vBottaccioli") as [->|]; [injection H as <-; right; repeat split; constructor|discriminate].
Qed.

Theorem C214_germany_refused : forall version, version <> "v0.1" -> version <> "vBottaccioli" -> germany_type version = Err ValueError.
Proof. intros version N1 N2. apply String.eqb_neq in N1, N2. unfold germany_type. rewrite N1, N2. reflexivity. Qed.
Print Assumptions C214_chains.
Print Assumptions C214_others.
Print Assumptions C214_sparse.
Print Assumptions C214_germany.
Print Assumptions C214_germany_refused.

Example C214_chains_ex : parse_tpm_with_duration "Bottaccioli2018" = Ok (Activities GTOU_label_to_Bottaccioli_act "nothing" true true) /\ parse_tpm "Sparse9States" = Err NotImplementedError.
Proof. split; reflexivity. Qed.
Example C214_germany_ex : germany_type "v0.2" = Err ValueError /\ bind (germany_type "v0.1") parse_sparse_tpm = Ok SparseNine.
Proof. split; reflexivity. Qed.

(** ** C215: names of the FfE household types *)

(** An int has a name exactly if it is one of the eleven types, and different types have
    different names. *)
Theorem C215_ints : forall z,
  ((1 <= z <= 11)%Z <-> exists s, labels_name (LInt z) = Ok (Name s)) /\
  (~ (1 <= z <= 11)%Z -> labels_name (LInt z) = Ok Nothing) /\
  forall z' s, labels_name (LInt z) = Ok (Name s) -> labels_name (LInt z') = Ok (Name s) -> z = z'.
Proof.
  assert (K : forall z, (1 <= z <= 11)%Z -> (z = 1 \/ z = 2 \/ z = 3 \/ z = 4 \/ z = 5 \/ z = 6 \/ z = 7 \/ z = 8 \/ z = 9 \/ z = 10 \/ z = 11)%Z) by (intros; lia).
  assert (O : forall z, ~ (1 <= z <= 11)%Z -> int_name z = Nothing).
  { intros z H. unfold int_name. repeat match goal with |- context [Z.eqb ?a ?b] => destruct (Z.eqb_spec a b); [lia|] end. reflexivity. }
  assert (D : forall z, {(1 <= z <= 11)%Z} + {~ (1 <= z <= 11)%Z}).
  { intro z. destruct (Z_le_dec 1 z); [|right; lia]. destruct (Z_le_dec z 11); [left; lia|right; lia]. }
  intro z. cbn [labels_name]. split; [|split].
  - split.
    + intro H. apply K in H. repeat (destruct H as [->|H]; [eexists; reflexivity|]). subst z. eexists. reflexivity.
    + intros (s & H). destruct (D z) as [|N]; [assumption|]. rewrite (O z N) in H. discriminate.
  - intro N. rewrite (O z N). reflexivity.
  - intros z' s H H'. destruct (D z) as [I|N]; [|rewrite (O z N) in H; discriminate]. destruct (D z') as [I'|N']; [|rewrite (O z' N') in H'; discriminate].
    apply K in I, I'. rewrite <- H in H'. clear H. repeat (destruct I as [->|I]; [repeat (destruct I' as [->|I']; [first [reflexivity|discriminate H']|]); subst z'; first [reflexivity|discriminate H']|]).
    subst z. repeat (destruct I' as [->|I']; [first [reflexivity|discriminate H']|]). subst z'. reflexivity.
Qed.

(** The names of all types. *)
Theorem C215_names : labels_name (LList (map (fun n => LInt (Z.of_nat n)) (seq 1 11))) = Ok (Names (map Name
  ["One full-time working person"; "One pensioneer"; "Two full-time working persons"; "Two pensioneers";
   "One full-time and one part-time working person"; "Two full-time working persons, one child";
   "One full-time and one part-time working person, one child"; "Two full-time working persons, two children";
   "One full-time and one part-time working person, two children"; " Two full-time working persons, three children";
   " One full-time and one part-time working person, three children"])).
Proof. reflexivity. Qed.

(** Lists: element by element. *)
Theorem C215_lists : forall l out, labels_name (LList l) = Ok out ->
  exists vs, out = Names vs /\ List.length vs = List.length l /\ forall i x, at_ l i x -> exists v, labels_name x = Ok v /\ at_ vs i v.
Proof.
  intros l out H. cbn [labels_name] in H. match type of H with bind (?f l) _ = _ => set (all := f) in * end.
  destruct (all l) as [vs|] eqn:E; [|discriminate]. cbn [bind] in H. assert (Eo : out = Names vs) by congruence. exists vs. split; [exact Eo|]. clear H Eo.
  revert vs E. induction l as [|y l IH]; intros vs E; cbn in E.
  - assert (Ev : vs = []) by congruence. subst vs. split; [reflexivity|]. intros [|i] x Hx; discriminate Hx.
  - destruct (labels_name y) as [v|] eqn:Ey; [|discriminate]. cbn [bind] in E. destruct (all l) as [vs'|] eqn:El; [|discriminate]. cbn [bind] in E. assert (Ev : vs = v :: vs') by congruence. subst vs.
    destruct (IH vs' eq_refl) as [L K]. split; [cbn [List.length]; rewrite L; reflexivity|]. intros [|i] x Hx; [|exact (K i x Hx)]. unfold at_ in Hx. cbn [nth_error] in Hx. assert (Ex : y = x) by congruence. subst x. exists v. split; [exact Ey|reflexivity].
Qed.

(** Refuted: labels given as an array have names.  Those of this array are types, and none has one. *)
Theorem C215_arrays_refuted : exists l, l <> [] /\ Forall (fun z => (1 <= z <= 11)%Z) l /\
  forall vs, labels_name (LArray l) = Ok (Names vs) -> forall v, In v vs -> v = Nothing.
Proof.
  exists [1; 7]%Z. split; [discriminate|]. split; [repeat constructor; lia|]. intros vs H v I. cbn in H. injection H as <-. cbn [In] in I. intuition.
Qed.

(** The corrected statement: whatever the array, one nothing per label; the same labels as
    ints in a list have their names. *)
Theorem C215_arrays_partial : forall l, labels_name (LArray l) = Ok (Names (map (fun _ => Nothing) l)) /\
  labels_name (LList (map LInt l)) = Ok (Names (map int_name l)).
Proof.
  intro l. split; [reflexivity|]. cbn [labels_name]. match goal with |- bind (?f _) _ = _ => set (all := f) end.
  assert (E : all (map LInt l) = Ok (map int_name l)). { induction l as [|z l IH]; [reflexivity|]. cbn [map]. cbn. change (all (map LInt l)) with (all (map LInt l)) in IH. fold all. rewrite IH. reflexivity. }
  rewrite E. reflexivity.
Qed.

(** A text that is not empty is not refused with a message: it never ends. *)
Theorem C215_texts : labels_name (LText "") = Ok (Names []) /\ forall s, s <> "" -> labels_name (LText s) = Err RecursionError.
Proof. split; [reflexivity|]. intros s N. apply String.eqb_neq in N. cbn [labels_name]. rewrite N. reflexivity. Qed.

(** An element of such an array, or anything else that is neither an int nor iterable. *)
Theorem C215_scalars : forall x, (exists z, x = LNumpy z) \/ x = LOther -> labels_name x = Ok Nothing.
Proof. intros x [(z & ->)|E]; [|subst x]; reflexivity. Qed.
Print Assumptions C215_ints.
Print Assumptions C215_names.
Print Assumptions C215_lists.
Print Assumptions C215_arrays_refuted.
Print Assumptions C215_arrays_partial.
Print Assumptions C215_texts.
Print Assumptions C215_scalars.

Example C215_lists_ex : labels_name (LList [LInt 2; LList [LInt 12; LNumpy 2]]) = Ok (Names [Name "One pensioneer"; Names [Nothing; Nothing]]).
Proof. reflexivity. Qed.

(** ** C216: the example of a loader *)

(** The two arrays come together: both saved ones, or both from the raw file; what was
    given is there the next time, also for a call of the other kind. *)
Theorem C216_pair : forall A (d d' : shelf A) a b, get_example true d = (d', Ok (a, Some b)) ->
  ((sh_one d = Some a /\ sh_two d = Some b /\ d' = d) \/ (sh_raw d = Some (a, b) /\ (sh_one d = None \/ sh_two d = None) /\ sh_raw d' = sh_raw d)) /\
  sh_one d' = Some a /\ sh_two d' = Some b /\
  get_example true d' = (d', Ok (a, Some b)) /\ get_example false d' = (d', Ok (a, None)).
Proof.
  intros A [o1 o2 r] d' a b H. unfold get_example in *. cbn [sh_one sh_two sh_raw] in H |- *. unfold parse_example in H. cbn [sh_raw] in H.
  destruct o1 as [x|]; [destruct o2 as [y|]|].
  - injection H as <- -> ->. cbn [sh_one sh_two sh_raw]. repeat split; left; repeat split.
  - destruct r as [[p q]|]; cbn [bind] in H; [|discriminate]. injection H as <- -> ->. cbn [sh_one sh_two sh_raw]. repeat split; right; repeat split; auto.
  - destruct r as [[p q]|]; cbn [bind] in H; [|discriminate]. injection H as <- -> ->. cbn [sh_one sh_two sh_raw]. repeat split; right; repeat split; auto.
Qed.

(** Only one array: the saved one whatever the raw file contains; it is never asked for. *)
Theorem C216_one : forall A (d : shelf A) a, sh_one d = Some a -> get_example false d = (d, Ok (a, None)).
Proof. intros A d a H. unfold get_example. rewrite H. reflexivity. Qed.

(** If it is not saved, the first column is given alone and both columns are saved. *)
Theorem C216_one_parsed : forall A (d : shelf A) a b, sh_one d = None -> sh_raw d = Some (a, b) ->
  get_example false d = (Shelf (Some a) (Some b) (Some (a, b)), Ok (a, None)).
Proof. intros A d a b H R. unfold get_example, parse_example. rewrite H, R. reflexivity. Qed.

(** The second array is given exactly if it is asked for. *)
Theorem C216_asked : forall A (d d' : shelf A) both a o, get_example both d = (d', Ok (a, o)) -> (o = None <-> both = false).
Proof.
  intros A [o1 o2 r] d' both a o H. unfold get_example, parse_example in H. cbn [sh_one sh_two sh_raw] in H.
  destruct o1, both, o2, r as [[p q]|]; cbn in H; try discriminate H; injection H as <- <- <-; split; congruence.
Qed.

(** A missing raw file is an error exactly when something asked for is not saved, and then
    nothing changes. *)
Theorem C216_missing : forall A (d : shelf A) both, sh_raw d = None ->
  ((sh_one d = None \/ (both = true /\ sh_two d = None)) <-> get_example both d = (d, Err FileNotFoundError)).
Proof.
  intros A [o1 o2 r] both H. cbn [sh_raw] in H. subst r. unfold get_example, parse_example. cbn [sh_one sh_two sh_raw].
  destruct o1, both, o2; cbn; intuition (try discriminate; try congruence).
Qed.
Print Assumptions C216_pair.
Print Assumptions C216_one.
Print Assumptions C216_one_parsed.
Print Assumptions C216_asked.
Print Assumptions C216_missing.

Example C216_pair_ex : get_example true (Shelf (Some 1%nat) None (Some (5, 6)%nat)) = (Shelf (Some 5%nat) (Some 6%nat) (Some (5, 6)%nat), Ok (5%nat, Some 6%nat)).
Proof. reflexivity. Qed.
Example C216_stale_ex : get_example false (Shelf (Some 1%nat) None (Some (5, 6)%nat)) = (Shelf (Some 1%nat) None (Some (5, 6)%nat), Ok (1%nat, None)).
Proof. reflexivity. Qed.
