(** * Properties of the choice of diaries: C134 to C137. *)

From Coq Require Import String List ZArith QArith Bool Lia.
From Verif Require Import Prelude SpecBase SpecBaseFacts GMask_Model GMask_Spec GMask_Proofs GMask_MainProofs GMask_ListProofs.
Import ListNotations.
Local Open Scope Z_scope.

(** Household 1 has one retired person; household 2 a retired couple, one of whom
    misses day 3; household 3 a working couple with one diary writer only. *)
Definition survey_example : tables :=
  mkTables
    [mkHh 1 1 2 1 3; mkHh 2 2 7 2 4; mkHh 3 2 4 2 5]
    [mkPers 11 1 8 1 1 70 1 2; mkPers 21 2 8 1 1 66 1 1; mkPers 22 2 8 1 2 64 2 2; mkPers 31 3 2 4 1 40 1 1; mkPers 32 3 2 4 2 41 1 2]
    [mkRec 1 11 1 0 1 2 1 1; mkRec 1 11 1 0 2 2 1 6;
     mkRec 2 21 1 0 1 1 2 1; mkRec 2 21 1 0 3 1 2 7; mkRec 2 22 2 3 1 1 2 1; mkRec 2 22 2 3 2 2 2 2;
     mkRec 3 31 1 0 1 1 3 1].

Ltac in_cases := repeat match goal with H : _ \/ _ |- _ => destruct H as [H | H] | H : False |- _ => destruct H end; subst.

Lemma example_well_formed : well_formed survey_example.
Proof.
  split; [|split; [|split]].
  - intros [|[|[|i]]] h H; cbv in H; try discriminate; try (injection H as <-; reflexivity). destruct i; discriminate.
  - repeat constructor; simpl; intuition discriminate.
  - intros r Hr. simpl in Hr. in_cases; (split; [ (exists (mkHh 1 1 2 1 3); split; [simpl; tauto|reflexivity]) || (exists (mkHh 2 2 7 2 4); split; [simpl; tauto|reflexivity]) || (exists (mkHh 3 2 4 2 5); split; [simpl; tauto|reflexivity])
    | (exists (mkPers 11 1 8 1 1 70 1 2); split; [simpl; tauto|reflexivity]) || (exists (mkPers 21 2 8 1 1 66 1 1); split; [simpl; tauto|reflexivity]) || (exists (mkPers 22 2 8 1 2 64 2 2); split; [simpl; tauto|reflexivity]) || (exists (mkPers 31 3 2 4 1 40 1 1); split; [simpl; tauto|reflexivity])]).
  - intros h Hh. simpl in Hh. in_cases; (split;
     [ (exists (mkRec 1 11 1 0 1 2 1 1); split; [simpl; tauto|reflexivity]) || (exists (mkRec 2 21 1 0 1 1 2 1); split; [simpl; tauto|reflexivity]) || (exists (mkRec 3 31 1 0 1 1 3 1); split; [simpl; tauto|reflexivity])
     | (exists (mkPers 11 1 8 1 1 70 1 2); split; [simpl; tauto|reflexivity]) || (exists (mkPers 21 2 8 1 1 66 1 1); split; [simpl; tauto|reflexivity]) || (exists (mkPers 31 3 2 4 1 40 1 1); split; [simpl; tauto|reflexivity])]).
Qed.

Lemma example_paired : paired survey_example.
Proof.
  exists [(mkRec 2 22 2 3 1 1 2 1, mkRec 2 22 2 3 2 2 2 2)]. split; [reflexivity|]. intros a b [H | []]. injection H as <- <-. auto.
Qed.

Lemma example_couples : couples_listed survey_example.
Proof. intros h Hh Hs. simpl in Hh. in_cases; try discriminate Hs; reflexivity. Qed.

(** ** C134: the mask *)

(** The mask marks exactly the diaries that satisfy every condition asked for.
    Partial: the reports of missing days must come in pairs, and the three flags
    must be on when a list or '1_retired' is given (see C135 and C136). *)
Theorem C134_mask_partial : forall t q, answerable t q -> (forall e, ~ problem q e) ->
  exists m, get_mask_subgroup t q = Ok m /\ marks t m (satisfies t q).
Proof. exact mask_main. Qed.
Print Assumptions C134_mask_partial.

Example C134_example :
  (forall q, (calls_itself q -> default_flags q) -> answerable survey_example q) /\
  get_mask_subgroup survey_example no_question = Ok [true; true; true; false; true; false; false] /\
  get_mask_subgroup survey_example (with_flags false false false no_question) = Ok [true; true; true; true; true; true; true] /\
  get_mask_subgroup survey_example (with_weekday (CInt 1) no_question) = Ok [true; false; true; false; true; false; false] /\
  get_mask_subgroup survey_example (mkQuery true true true (Some 2) CNone CNone (Some 2) (Some 1) (Some 4) (Some "2_retired"%string) None CNone (RPair 65 66) (RPair 60 65) (Some 2) (Some 2) (Some 2) None)
    = Ok [false; false; false; false; true; false; false] /\
  get_mask_subgroup survey_example (mkQuery true true true None CNone CNone None None None (Some "2_retired"%string) None CNone (RPair 60 65) RNone None None None None)
    = Ok [false; false; false; false; false; false; false].
Proof.
  split; [intros q H; split; [exact example_well_formed|]; split; [intros _; exact example_paired|]; split; [intros _; exact example_couples|exact H]|].
  conj_vm.
Qed.

(** ** C135: missing days *)

(** No diary of a day that somebody of the household misses is chosen. *)
Theorem C135_days_partial : forall t q m i r, answerable t q -> (forall e, ~ problem q e) -> q_remove q = true ->
  get_mask_subgroup t q = Ok m -> at_ (t_records t) i r -> at_ m i true -> ~ day_missing t r.
Proof.
  intros t q m i r A N Hr E Hi Hm. destruct (mask_main t q A N) as (m' & E' & _ & H). rewrite E in E'. injection E' as <-.
  destruct A as ((_ & _ & W & _) & _). destruct (W r (at_in _ _ _ _ Hi)) as [(h & Hh) (p & Hp)].
  apply (H i r h p Hi Hh Hp) in Hm. apply Hm, Hr.
Qed.
Print Assumptions C135_days_partial.

(** A diary is only left out for a reason, whatever the order of the reports. *)
Theorem C135_reason : forall t q m, well_formed t -> (q_work q = Some "2_retired"%string -> couples_listed t) -> (calls_itself q -> default_flags q) ->
  get_mask_subgroup t q = Ok m ->
  forall i r h p, at_ (t_records t) i r -> lives_in t r h -> written_by t r p -> satisfies t q r h p -> at_ m i true.
Proof. exact days_sound. Qed.
Print Assumptions C135_reason.

(** Only every second report is looked at: with a single diary per report the days
    of every second household stay. *)
Theorem C135_days_refuted : exists t m i r, well_formed t /\ get_mask_subgroup t no_question = Ok m /\
  at_ (t_records t) i r /\ day_missing t r /\ at_ m i true.
Proof.
  set (r1 := mkRec 1 1 1 2 1 1 1 1). set (r2 := mkRec 2 2 1 2 2 1 1 1).
  exists (mkTables [mkHh 1 1 2 1 1; mkHh 2 1 2 1 1] [mkPers 1 1 1 1 1 30 1 1; mkPers 2 2 1 1 1 30 1 1] [r1; r2]), [true; true], 1%nat, r2.
  split; [|split; [vm_compute; reflexivity|split; [reflexivity|split; [|reflexivity]]]].
  - split; [|split; [|split]].
    + intros [|[|i]] h H; cbv in H; try discriminate; try (injection H as <-; reflexivity). destruct i; discriminate.
    + repeat constructor; simpl; intuition discriminate.
    + intros r Hr. simpl in Hr. destruct Hr as [<- | [<- | []]]; (split; (eexists; split; [left; reflexivity|reflexivity]) || (eexists; split; [right; left; reflexivity|reflexivity])).
    + intros h Hh. simpl in Hh. destruct Hh as [<- | [<- | []]]; (split; (eexists; split; [left; reflexivity|reflexivity]) || (eexists; split; [right; left; reflexivity|reflexivity])).
  - exists r2. repeat split; simpl; auto. discriminate.
Qed.
Print Assumptions C135_days_refuted.

Example C135_example : get_mask_subgroup survey_example (with_flags false true false no_question) = Ok [true; true; true; false; true; true; true].
Proof. vm_compute; reflexivity. Qed.

(** ** C136: lists *)

(** A list chooses the union of what its elements choose. *)
Theorem C136_weekdays_partial : forall t q l, l <> [] -> answerable t (with_weekday (CList l) q) -> (forall e, ~ problem (with_weekday (CList l) q) e) ->
  exists m, get_mask_subgroup t (with_weekday (CList l) q) = Ok m /\
    forall i, at_ m i true <-> exists z m', In z l /\ get_mask_subgroup t (with_weekday (CInt z) q) = Ok m' /\ at_ m' i true.
Proof. exact union_weekday. Qed.
Print Assumptions C136_weekdays_partial.

Theorem C136_residents_partial : forall t q l, l <> [] -> answerable t (with_residents (CList l) q) -> (forall e, ~ problem (with_residents (CList l) q) e) ->
  exists m, get_mask_subgroup t (with_residents (CList l) q) = Ok m /\
    forall i, at_ m i true <-> exists z m', In z l /\ get_mask_subgroup t (with_residents (CInt z) q) = Ok m' /\ at_ m' i true.
Proof. exact union_residents. Qed.
Print Assumptions C136_residents_partial.

Theorem C136_life_partial : forall t q l, l <> [] -> answerable t (with_life (CList l) q) -> (forall e, ~ problem (with_life (CList l) q) e) ->
  exists m, get_mask_subgroup t (with_life (CList l) q) = Ok m /\
    forall i, at_ m i true <-> exists z m', In z l /\ get_mask_subgroup t (with_life (CInt z) q) = Ok m' /\ at_ m' i true.
Proof. exact union_life. Qed.
Print Assumptions C136_life_partial.

(** With the flags switched off a list of one element chooses less than the element:
    the flags come back in the calls for the elements. *)
Theorem C136_flags_refuted : exists t q z m m', well_formed t /\ paired t /\ couples_listed t /\
  get_mask_subgroup t (with_weekday (CInt z) q) = Ok m /\ get_mask_subgroup t (with_weekday (CList [z]) q) = Ok m' /\ m <> m'.
Proof.
  exists survey_example, (with_flags false false false no_question), 1. eexists. eexists.
  split; [exact example_well_formed|]. split; [exact example_paired|]. split; [exact example_couples|].
  split; [vm_compute; reflexivity|]. split; [vm_compute; reflexivity|]. discriminate.
Qed.
Print Assumptions C136_flags_refuted.

Example C136_example :
  get_mask_subgroup survey_example (with_weekday (CList [1; 6]) no_question) = Ok [true; true; true; false; true; false; false] /\
  get_mask_subgroup survey_example (with_residents (CList [1; 3]) no_question) = Ok [true; true; false; false; false; false; false] /\
  get_mask_subgroup survey_example (with_life (CList [2]) no_question) = Ok [false; false; false; false; false; false; false].
Proof. conj_vm. Qed.

(** ** C137: questions that cannot be answered *)

(** A code out of its range, a reversed or missing interval, an unknown work type or
    a dictionary raises one of the errors that the question justifies. *)
Theorem C137_errors : forall t q e, well_formed t -> (q_work q = Some "2_retired"%string -> couples_listed t) -> problem q e ->
  exists e', get_mask_subgroup t q = Err e' /\ problem q e'.
Proof. exact problem_main. Qed.
Print Assumptions C137_errors.

(** Tables that do not fit together cannot be used at all. *)
Theorem C137_persons : forall t q r, In r (t_records t) -> (forall p, ~ written_by t r p) -> get_mask_subgroup t q = Err IndexError.
Proof. exact import_person. Qed.
Print Assumptions C137_persons.

Theorem C137_households : forall t q h, (forall r, In r (t_records t) -> exists p, written_by t r p) ->
  In h (t_households t) -> (forall r, In r (t_records t) -> r_hh r <> h_id h) -> get_mask_subgroup t q = Err ValueError.
Proof. exact import_household. Qed.
Print Assumptions C137_households.

(** family_situation and is_travelling are accepted and have no effect. *)
Theorem C137_unused : forall t q f b, get_mask_subgroup t (with_unused f b q) = get_mask_subgroup t q.
Proof. intros. reflexivity. Qed.
Print Assumptions C137_unused.

Example C137_example :
  get_mask_subgroup survey_example (with_weekday (CInt 8) no_question) = Err AssertionError /\
  get_mask_subgroup survey_example (with_weekday (CList [1; -1]) no_question) = Err AssertionError /\
  get_mask_subgroup survey_example (with_life CDict no_question) = Err NotImplementedError /\
  get_mask_subgroup survey_example (with_residents CDict no_question) = Err TypeError /\
  get_mask_subgroup survey_example (mkQuery true true true None CNone CNone None None None (Some "4_fulltime"%string) None CNone RNone RNone None None None None) = Err ValueError /\
  get_mask_subgroup survey_example (mkQuery true true true None CNone CNone None None None None None CNone RNone (RPair 30 20) None None None None) = Err AssertionError /\
  get_mask_subgroup (mkTables [mkHh 1 1 2 1 1] [] [mkRec 1 1 1 0 1 1 1 1]) no_question = Err IndexError /\
  get_mask_subgroup (mkTables [mkHh 1 1 2 1 1] [] []) no_question = Err ValueError.
Proof. conj_vm. Qed.
