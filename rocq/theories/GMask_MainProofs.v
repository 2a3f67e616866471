(** * Questions answered as meant. *)

From Coq Require Import String List ZArith QArith Bool Arith Lia.
From Coq Require Import ZifyBool ZifyNat.
From Verif Require Import Prelude PreludeFacts SpecBase SpecBaseFacts Appliance_Model Parse_Model Matrix_Proofs GMask_Model GMask_Spec GMask_Proofs.
Import ListNotations.
Local Open Scope Z_scope.

Lemma problem_not_good : forall q e, problem q e -> ~ good q.
Proof.
  intros q e H G. unfold good in G. destruct G as (_ & _ & _ & G1 & G2 & G3 & G4 & G5 & G6 & G7 & G8 & G9 & G10 & G11 & G12 & G13).
  assert (C : forall x most, ok_code x most -> ~ bad_code x most).
  { intros x most Hx (z & -> & Hz). exact (Hz Hx). }
  assert (D : forall x most, ok_choice x most -> ~ bad_choice x most).
  { intros x most Hx [(z & -> & Hz) | (l & z & -> & Hi & Hz)]; [exact (Hz Hx)|exact (Hz (Hx z Hi))]. }
  assert (R : forall g, ok_range g -> ~ bad_range g).
  { intros g Hg [(z & -> & Hz) | (a & b & -> & Hz)]; [exact (Hz Hg)|exact (Qlt_not_le _ _ Hz Hg)]. }
  destruct H as [H | H | (w & Ew & Hw) | H | H].
  - destruct H as [H | [H | [H | [H | [H | [H | [H | [H | [H | H]]]]]]]]]; revert H; first [apply C; assumption|apply D; assumption].
  - destruct H as [H | H]; revert H; apply R; assumption.
  - rewrite Ew in G4. exact (Hw G4).
  - destruct H as [E | E]; [rewrite E in G2; exact G2|rewrite E in G3; exact G3].
  - rewrite H in G6. exact G6.
Qed.

Lemma problem_simple : forall q e, problem q e -> q_work q = None -> q_weekday q <> CDict -> q_residents q <> CDict -> q_life q <> CDict -> e = AssertionError.
Proof.
  intros q e [H | H | (w & Ew & _) | [H | H] | H] N1 N2 N3 N4; try reflexivity; congruence.
Qed.

Section Tables.
Variable t : tables.
Hypothesis W : well_formed t.
Variable people : list person.
Hypothesis Lp : length people = length (t_records t).
Hypothesis Hpeople : forall i r p, at_ (t_records t) i r -> written_by t r p -> at_ people i p.
Variable recorded : list Z.
Hypothesis Lr : length recorded = length (t_households t).
Hypothesis Hrec : forall k h n, at_ (t_households t) k h -> at_ recorded k n -> (h_size h = n <-> fully_recorded t h).

Let call := select t people recorded.
Let inner := call (fun _ => Err RecursionError).

Lemma raw_simple : forall (q : query) (X : record -> household -> person -> Prop), ~ calls_itself q -> q_work q = None ->
  (forall r h p, raw t q r h p <-> X r h p) ->
  (good q /\ exists m, inner q = Ok m /\ marks t m X) \/ (~ good q /\ exists e, inner q = Err e /\ problem q e).
Proof.
  intros q X Nc Nw HX. destruct (select_raw t W people Lp Hpeople recorded Lr Hrec (fun _ => Err RecursionError) q) as [(G & m & E & Hm) | H].
  - intro Hc. contradiction.
  - rewrite Nw. discriminate.
  - left. split; [exact G|]. exists m. split; [exact E|]. eapply marks_iff; [|exact Hm]. intros. apply HX.
  - right. exact H.
Qed.

Lemma inner_asks : asks t inner.
Proof.
  split; [|split; [|split]].
  - intro z. destruct (raw_simple (ask_weekday z) (fun r h p => all_base t r h /\ (z = 0 \/ r_weekday r = z))) as [(G & m & E & Hm) | (G & e & E & Hp)].
    + intros [(l & _ & [X | [X | X]]) | X]; discriminate.
    + reflexivity.
    + intros r h p. unfold raw, both, all_base, wants, picks, picks_work. cbn. clear. tauto.
    + left. unfold good in G. cbn in G. split; [tauto|]. eauto.
    + right. split; [intro X; apply G; unfold good; cbn; tauto|]. rewrite E. f_equal. apply (problem_simple _ _ Hp); try reflexivity; discriminate.
  - intro z. destruct (raw_simple (ask_residents z) (fun r h p => all_base t r h /\ (z = 0 \/ h_size h = z))) as [(G & m & E & Hm) | (G & e & E & Hp)].
    + intros [(l & _ & [X | [X | X]]) | X]; discriminate.
    + reflexivity.
    + intros r h p. unfold raw, both, all_base, wants, picks, picks_work. cbn. clear. tauto.
    + left. unfold good in G. cbn in G. split; [tauto|]. eauto.
    + right. split; [intro X; apply G; unfold good; cbn; tauto|]. rewrite E. f_equal. apply (problem_simple _ _ Hp); try reflexivity; discriminate.
  - intro z. destruct (raw_simple (ask_life z) (fun r h p => all_base t r h /\ (z = 0 \/ p_life p = z))) as [(G & m & E & Hm) | (G & e & E & Hp)].
    + intros [(l & _ & [X | [X | X]]) | X]; discriminate.
    + reflexivity.
    + intros r h p. unfold raw, both, all_base, wants, picks, picks_work. cbn. clear. tauto.
    + left. unfold good in G. cbn in G. split; [tauto|]. eauto.
    + right. split; [intro X; apply G; unfold good; cbn; tauto|]. rewrite E. f_equal. apply (problem_simple _ _ Hp); try reflexivity; discriminate.
  - destruct (raw_simple ask_retired (fun r h p => all_base t r h /\ h_size h = 1 /\ p_life p = 8)) as [(G & m & E & Hm) | (G & e & E & Hp)].
    + intros [(l & _ & [X | [X | X]]) | X]; discriminate.
    + reflexivity.
    + intros r h p. unfold raw, both, all_base, wants, picks, picks_work. cbn. clear. intuition discriminate.
    + eauto.
    + exfalso. apply G. unfold good. cbn. repeat split; auto; lia.
Qed.
End Tables.

Lemma mask_raw : forall t q, well_formed t -> (q_work q = Some "2_retired"%string -> couples_listed t) ->
  (good q /\ exists m, get_mask_subgroup t q = Ok m /\ marks t m (raw t q)) \/
  (~ good q /\ exists e, get_mask_subgroup t q = Err e /\ problem q e).
Proof.
  intros t q W C. destruct (persons_ok t W) as (people & Ep & Lp & Hp). destruct (recorded_ok t W) as (recorded & Er & Lr & Hr).
  unfold get_mask_subgroup. rewrite Ep, Er. cbn [bind]. apply select_raw; auto.
  intro H. eapply inner_asks; eauto.
Qed.

Lemma paired_listed : forall t, paired t -> forall r, day_listed t r <-> day_missing t r.
Proof.
  intros t (pairs & E & Hp) r. unfold day_listed, day_missing.
  assert (X : forall f, In f (flagged t) <-> In f (t_records t) /\ r_missing f <> 0).
  { intro f. unfold flagged. rewrite filter_In, negb_true_iff, Z.eqb_neq. reflexivity. }
  split.
  - intros (f & Hf & E1 & E2). apply every_second_in, X in Hf. exists f. tauto.
  - intros (f & Hf & N & E1 & E2). pose proof (proj2 (X f) (conj Hf N)) as Hin. unfold flagged in Hin |- *. rewrite E in Hin |- *. clear - Hin Hp E1 E2.
    induction pairs as [|[a b] pairs IH]; simpl in *; [contradiction|]. destruct (Hp a b (or_introl eq_refl)) as [H1 H2].
    destruct Hin as [-> | [-> | Hin]].
    + exists f. auto.
    + exists a. rewrite H1, H2. auto.
    + destruct (IH (fun a b H => Hp a b (or_intror H)) Hin) as (g & Hg & Eg). exists g. auto.
Qed.

Lemma picks_wants : forall q c (R : Z -> record -> household -> person -> Prop) (v : record -> household -> person -> Z) r h p, ((exists l, l <> [] /\ c = CList l) -> default_flags q) ->
  (default_flags q -> forall z, R z r h p <-> (z = 0 \/ v r h p = z)) ->
  (picks c R v r h p <-> wants_one c (v r h p)).
Proof.
  intros q c R v r h p Hd HR. destruct c as [|z|[|z l]|]; cbn [picks wants_one]; try reflexivity.
  - split; auto.
  - assert (D : default_flags q). { apply Hd. exists (z :: l). split; [discriminate|auto]. }
    specialize (HR D). split; (intros [X | (z' & I & X)]; [discriminate|right; exists z'; split; [exact I|apply HR; exact X]]).
Qed.

Definition with_days (t : tables) (q : query) (D : Prop) (r : record) (h : household) (p : person) : Prop :=
  ((q_full q = true -> fully_recorded t h) /\ (q_remove q = true -> ~ D) /\ (q_same q = true -> r_same r = 1 \/ h_size h = 1)) /\
     wants (q_quarter q) (r_quarter r) /\
     wants_one (q_weekday q) (r_weekday r) /\
     wants_one (q_residents q) (h_size h) /\
     wants_work t (q_work q) h p /\
     wants (q_type q) (h_type h) /\
     wants_one (q_life q) (p_life p) /\
     wants (q_salary q) (p_salary p) /\ wants (q_revenue q) (h_revenue h) /\ wants (q_position q) (p_position p) /\
     wants_range (q_age q) (inject_Z (p_age p)) /\
     (forall x, members_age t h x -> wants_range (q_mean_age q) x) /\
     wants (q_country q) (p_country p) /\ wants (q_gender q) (p_gender p).

Lemma satisfies_with : forall t q r h p, satisfies t q r h p <-> with_days t q (day_missing t r) r h p.
Proof. intros. unfold satisfies, with_days. generalize (forall x, members_age t h x -> wants_range (q_mean_age q) x). intro. tauto. Qed.

Lemma raw_with : forall t q r h p, (calls_itself q -> default_flags q) ->
  (raw t q r h p <-> with_days t q (day_listed t r) r h p).
Proof.
  intros t q r h p Hd.
  assert (K : forall X Y : Prop, (base t q r h -> (X <-> Y)) -> (base t q r h /\ X <-> base t q r h /\ Y)).
  { clear. tauto. }
  assert (B : base t q r h -> default_flags q -> all_base t r h).
  { clear. unfold base, all_base, default_flags. tauto. }
  assert (Er : raw t q r h p <-> base t q r h /\ (
     wants (q_quarter q) (r_quarter r) /\
     picks (q_weekday q) (fun z r h p => all_base t r h /\ (z = 0 \/ r_weekday r = z)) (fun r h p => r_weekday r) r h p /\
     picks (q_residents q) (fun z r h p => all_base t r h /\ (z = 0 \/ h_size h = z)) (fun r h p => h_size h) r h p /\
     picks_work t (q_work q) (fun r h p => all_base t r h /\ h_size h = 1 /\ p_life p = 8) r h p /\
     wants (q_type q) (h_type h) /\
     picks (q_life q) (fun z r h p => all_base t r h /\ (z = 0 \/ p_life p = z)) (fun r h p => p_life p) r h p /\
     wants (q_salary q) (p_salary p) /\ wants (q_revenue q) (h_revenue h) /\ wants (q_position q) (p_position p) /\
     wants_range (q_age q) (inject_Z (p_age p)) /\
     (forall x, members_age t h x -> wants_range (q_mean_age q) x) /\
     wants (q_country q) (p_country p) /\ wants (q_gender q) (p_gender p))).
  { unfold raw, both, base.
    assert (X : match q_mean_age q with RPair a b => forall x, members_age t h x -> (a <= x)%Q /\ (x < b)%Q | _ => True end <->
                (forall x, members_age t h x -> wants_range (q_mean_age q) x)).
    { unfold wants_range. destruct (q_mean_age q); clear; intuition auto. }
    rewrite X. change (match q_age q with RPair a b => (a <= inject_Z (p_age p))%Q /\ (inject_Z (p_age p) < b)%Q | _ => True end) with (wants_range (q_age q) (inject_Z (p_age p))). clear. generalize (forall x, members_age t h x -> wants_range (q_mean_age q) x). intro. tauto. }
  rewrite Er. unfold with_days. fold (base t q r h). apply K. intro Hb.
  rewrite (picks_wants q (q_weekday q)), (picks_wants q (q_residents q)), (picks_wants q (q_life q)).
  - assert (X : picks_work t (q_work q) (fun r h p => all_base t r h /\ h_size h = 1 /\ p_life p = 8) r h p <-> wants_work t (q_work q) h p).
    { unfold picks_work, wants_work. destruct (q_work q) as [w|] eqn:Ew; [|reflexivity].
      destruct (String.eqb_spec w "1_retired") as [Ew1|N].
      - assert (A : all_base t r h). { apply B; [exact Hb|]. apply Hd. right. congruence. }
        unfold couple_retired. clear - A. tauto.
      - unfold couple_retired. clear - N. tauto. }
    rewrite X. reflexivity.
  - intros (l & Nl & El). apply Hd. left. exists l. tauto.
  - intros D z. specialize (B Hb D). clear - B. tauto.
  - intros (l & Nl & El). apply Hd. left. exists l. tauto.
  - intros D z. specialize (B Hb D). clear - B. tauto.
  - intros (l & Nl & El). apply Hd. left. exists l. tauto.
  - intros D z. specialize (B Hb D). clear - B. tauto.
Qed.

Lemma raw_satisfies : forall t q r h p, (q_remove q = true -> paired t) -> (calls_itself q -> default_flags q) ->
  (raw t q r h p <-> satisfies t q r h p).
Proof.
  intros t q r h p Hp Hd. rewrite (raw_with t q r h p Hd), satisfies_with. unfold with_days. destruct (q_remove q).
  - rewrite (paired_listed t (Hp eq_refl) r). reflexivity.
  - generalize (forall x, members_age t h x -> wants_range (q_mean_age q) x). intro. clear. intuition discriminate.
Qed.

Lemma listed_missing : forall t r, day_listed t r -> day_missing t r.
Proof.
  intros t r (f & Hf & E1 & E2). apply every_second_in in Hf. unfold flagged in Hf. rewrite filter_In, negb_true_iff, Z.eqb_neq in Hf. exists f. tauto.
Qed.

Lemma raw_listed : forall t q r h p, (calls_itself q -> default_flags q) -> satisfies t q r h p -> raw t q r h p.
Proof.
  intros t q r h p Hd H. rewrite (raw_with t q r h p Hd). apply satisfies_with in H. unfold with_days in *. pose proof (listed_missing t r).
  revert H. generalize (forall x, members_age t h x -> wants_range (q_mean_age q) x). intro. clear - H0. tauto.
Qed.

Lemma mask_main : forall t q, answerable t q -> (forall e, ~ problem q e) -> exists m, get_mask_subgroup t q = Ok m /\ marks t m (satisfies t q).
Proof.
  intros t q (W & Hp & Hc & Hd) N. destruct (mask_raw t q W Hc) as [(G & m & E & Hm) | (G & e & E & He)]; [|destruct (N e He)].
  exists m. split; [exact E|]. eapply marks_iff; [|exact Hm]. intros r h p _ _ _. apply raw_satisfies; auto.
Qed.

Lemma problem_main : forall t q e, well_formed t -> (q_work q = Some "2_retired"%string -> couples_listed t) -> problem q e ->
  exists e', get_mask_subgroup t q = Err e' /\ problem q e'.
Proof.
  intros t q e W C H. destruct (mask_raw t q W C) as [(G & _) | (_ & X)]; [|exact X]. destruct (problem_not_good q e H G).
Qed.

(** Without the pairs a diary is still only taken out because of a report. *)
Lemma days_sound : forall t q m, well_formed t -> (q_work q = Some "2_retired"%string -> couples_listed t) -> (calls_itself q -> default_flags q) ->
  get_mask_subgroup t q = Ok m ->
  forall i r h p, at_ (t_records t) i r -> lives_in t r h -> written_by t r p -> satisfies t q r h p -> at_ m i true.
Proof.
  intros t q m W C D E i r h p Hi Hh Hp S. destruct (mask_raw t q W C) as [(G & m' & E' & Hm) | (G & e & E' & He)]; [|congruence].
  rewrite E in E'. injection E' as <-. destruct Hm as [_ Hm]. apply (Hm i r h p Hi Hh Hp). clear Hm.
  apply raw_listed; auto.
Qed.

Lemma import_person : forall t q r, In r (t_records t) -> (forall p, ~ written_by t r p) -> get_mask_subgroup t q = Err IndexError.
Proof.
  intros t q r Hr N. unfold get_mask_subgroup.
  assert (X : persons_of t = Err IndexError).
  { unfold persons_of. revert Hr. generalize (t_records t). intro l. induction l as [|a l IH]; simpl; [contradiction|].
    assert (Y : forall ps id, first_person ps id = Err IndexError \/ exists p, first_person ps id = Ok p).
    { induction ps as [|b ps IHp]; simpl; auto. intro id. destruct (p_id b =? id); eauto. }
    intros [-> | H].
    - destruct (Y (t_persons t) (r_pers r)) as [-> | (p & E)]; [reflexivity|]. apply first_person_ok in E. destruct (N p E).
    - destruct (Y (t_persons t) (r_pers a)) as [-> | (p & ->)]; [reflexivity|]. cbn [bind]. rewrite (IH H). reflexivity. }
  rewrite X. reflexivity.
Qed.

Lemma import_household : forall t q h, (forall r, In r (t_records t) -> exists p, written_by t r p) ->
  In h (t_households t) -> (forall r, In r (t_records t) -> r_hh r <> h_id h) -> get_mask_subgroup t q = Err ValueError.
Proof.
  intros t q h Hp Hh N. unfold get_mask_subgroup.
  destruct (mapM_total _ _ (fun r => first_person (t_persons t) (r_pers r)) (t_records t)) as [out E].
  { intros r Hr. destruct (Hp r Hr) as (p & Hi & Ei). eapply first_person_some; eauto. }
  unfold persons_of. rewrite E. cbn [bind].
  assert (X : mapM (recorded_persons t) (t_households t) = Err ValueError).
  { revert Hh. generalize (t_households t). intro l. induction l as [|a l IH]; simpl; [contradiction|].
    assert (Y : recorded_persons t a = Err ValueError \/ exists n, recorded_persons t a = Ok n).
    { unfold recorded_persons. destruct (map r_number _); eauto. }
    intros [-> | H].
    - assert (Z : recorded_persons t h = Err ValueError).
      { unfold recorded_persons. destruct (filter (fun r => r_hh r =? h_id h) (t_records t)) as [|r l'] eqn:Ef; [reflexivity|].
        assert (In r (filter (fun r => r_hh r =? h_id h) (t_records t))) as Hr by (rewrite Ef; left; reflexivity).
        apply filter_In in Hr as [Hr Ei]. destruct (N r Hr). lia. }
      rewrite Z. reflexivity.
    - destruct Y as [-> | (n & ->)]; [reflexivity|]. cbn [bind]. rewrite (IH H). reflexivity. }
  rewrite X. reflexivity.
Qed.
