(** * Lists of codes. *)

From Coq Require Import String List ZArith QArith Bool Arith Lia.
From Verif Require Import Prelude SpecBase SpecBaseFacts GMask_Model GMask_Spec GMask_Proofs GMask_MainProofs.
Import ListNotations.
Local Open Scope Z_scope.

Lemma union_core : forall (set : choice -> query -> query) t q l,
  (forall e z, In z l -> problem (set (CInt z) q) e -> problem (set (CList l) q) e) ->
  (forall z, answerable t (set (CList l) q) -> answerable t (set (CInt z) q)) ->
  (forall r h p, satisfies t (set (CList l) q) r h p <-> exists z, In z l /\ satisfies t (set (CInt z) q) r h p) ->
  answerable t (set (CList l) q) -> (forall e, ~ problem (set (CList l) q) e) ->
  exists m, get_mask_subgroup t (set (CList l) q) = Ok m /\
    forall i, at_ m i true <-> exists z m', In z l /\ get_mask_subgroup t (set (CInt z) q) = Ok m' /\ at_ m' i true.
Proof.
  intros set t q l Hp Ha Hs A N. destruct (mask_main t _ A N) as (m & E & L & Hm). exists m. split; [exact E|]. intro i.
  assert (X : forall z, In z l -> exists m', get_mask_subgroup t (set (CInt z) q) = Ok m' /\ marks t m' (satisfies t (set (CInt z) q))).
  { intros z Hz. apply mask_main; [apply Ha, A|]. intros e H. exact (N e (Hp e z Hz H)). }
  pose proof A as ((_ & _ & W & _) & _).
  split.
  - intro H. pose proof (at_lt _ _ _ _ H) as Hlt. rewrite L in Hlt. destruct (lt_at _ _ _ Hlt) as [r Hr].
    destruct (W r (at_in _ _ _ _ Hr)) as [(h & Hh) (p & Hq)]. apply (Hm i r h p Hr Hh Hq), Hs in H. destruct H as (z & Hz & H).
    destruct (X z Hz) as (m' & E' & L' & Hm'). exists z, m'. repeat split; auto. apply (Hm' i r h p Hr Hh Hq), H.
  - intros (z & m' & Hz & E' & H). destruct (X z Hz) as (m'' & E'' & L' & Hm'). rewrite E' in E''. injection E'' as <-.
    pose proof (at_lt _ _ _ _ H) as Hlt. rewrite L' in Hlt. destruct (lt_at _ _ _ Hlt) as [r Hr].
    destruct (W r (at_in _ _ _ _ Hr)) as [(h & Hh) (p & Hq)]. apply (Hm' i r h p Hr Hh Hq) in H. apply (Hm i r h p Hr Hh Hq), Hs. eauto.
Qed.

Lemma bad_choice_list : forall z l most, In z l -> bad_choice (CInt z) most -> bad_choice (CList l) most.
Proof. intros z l most Hz [(z' & E & H) | (l' & z' & E & _)]; [|discriminate]. right. exists l, z. injection E as <-. auto. Qed.

Ltac list_problem :=
  intros e z Hz [H | H | H | H | H]; cbn in H;
  [ apply bad_number; cbn; pose proof (bad_choice_list z) as X; clear - H X Hz;
    repeat (destruct H as [H | H]; [try tauto; eauto 12|]); tauto
  | apply bad_interval; cbn; exact H
  | apply bad_work; cbn; exact H
  | apply bad_dict; cbn; destruct H as [H | H]; try discriminate H; auto
  | apply bad_life_dict; cbn; try discriminate H; exact H ].

Lemma wants_list : forall l v, l <> [] -> (wants_one (CList l) v <-> exists z, In z l /\ wants_one (CInt z) v).
Proof. intros l v N. cbn. split; [intros [X | X]; [contradiction|exact X]|auto]. Qed.

Lemma union_weekday : forall t q l, l <> [] -> answerable t (with_weekday (CList l) q) -> (forall e, ~ problem (with_weekday (CList l) q) e) ->
  exists m, get_mask_subgroup t (with_weekday (CList l) q) = Ok m /\
    forall i, at_ m i true <-> exists z m', In z l /\ get_mask_subgroup t (with_weekday (CInt z) q) = Ok m' /\ at_ m' i true.
Proof.
  intros t q l Nl. apply union_core.
  - list_problem.
  - intros z (W & Hp & Hc & Hd). split; [exact W|]. split; [exact Hp|]. split; [exact Hc|]. intros _. apply Hd. left. exists l. split; [exact Nl|]. left. reflexivity.
  - intros r h p. unfold satisfies. cbn [q_full q_remove q_same q_quarter q_weekday q_residents q_work q_type q_life q_salary q_revenue q_position q_age q_mean_age q_country q_gender with_weekday].
    rewrite (wants_list l _ Nl). split; [intros H; decompose [and] H; match goal with H : exists z, _ |- _ => destruct H as (z & Hz & Hw) end; exists z; split; [exact Hz|]; repeat (split; [assumption|]); assumption|].
    intros (z & Hz & H). decompose [and] H. repeat (split; [assumption || (exists z; split; assumption)|]); assumption.
Qed.

Lemma union_residents : forall t q l, l <> [] -> answerable t (with_residents (CList l) q) -> (forall e, ~ problem (with_residents (CList l) q) e) ->
  exists m, get_mask_subgroup t (with_residents (CList l) q) = Ok m /\
    forall i, at_ m i true <-> exists z m', In z l /\ get_mask_subgroup t (with_residents (CInt z) q) = Ok m' /\ at_ m' i true.
Proof.
  intros t q l Nl. apply union_core.
  - list_problem.
  - intros z (W & Hp & Hc & Hd). split; [exact W|]. split; [exact Hp|]. split; [exact Hc|]. intros _. apply Hd. left. exists l. split; [exact Nl|]. right; left. reflexivity.
  - intros r h p. unfold satisfies. cbn [q_full q_remove q_same q_quarter q_weekday q_residents q_work q_type q_life q_salary q_revenue q_position q_age q_mean_age q_country q_gender with_residents].
    rewrite (wants_list l _ Nl). split; [intros H; decompose [and] H; match goal with H : exists z, _ |- _ => destruct H as (z & Hz & Hw) end; exists z; split; [exact Hz|]; repeat (split; [assumption|]); assumption|].
    intros (z & Hz & H). decompose [and] H. repeat (split; [assumption || (exists z; split; assumption)|]); assumption.
Qed.

Lemma union_life : forall t q l, l <> [] -> answerable t (with_life (CList l) q) -> (forall e, ~ problem (with_life (CList l) q) e) ->
  exists m, get_mask_subgroup t (with_life (CList l) q) = Ok m /\
    forall i, at_ m i true <-> exists z m', In z l /\ get_mask_subgroup t (with_life (CInt z) q) = Ok m' /\ at_ m' i true.
Proof.
  intros t q l Nl. apply union_core.
  - list_problem.
  - intros z (W & Hp & Hc & Hd). split; [exact W|]. split; [exact Hp|]. split; [exact Hc|]. intros _. apply Hd. left. exists l. split; [exact Nl|]. right; right. reflexivity.
  - intros r h p. unfold satisfies. cbn [q_full q_remove q_same q_quarter q_weekday q_residents q_work q_type q_life q_salary q_revenue q_position q_age q_mean_age q_country q_gender with_life].
    rewrite (wants_list l _ Nl). split; [intros H; decompose [and] H; match goal with H : exists z, _ |- _ => destruct H as (z & Hz & Hw) end; exists z; split; [exact Hz|]; repeat (split; [assumption|]); assumption|].
    intros (z & Hz & H). decompose [and] H. repeat (split; [assumption || (exists z; split; assumption)|]); assumption.
Qed.
