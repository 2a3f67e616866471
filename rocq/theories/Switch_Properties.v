(** * Properties of the simulators whose tables follow the calendar (C138-C143). *)

From Coq Require Import String List ZArith QArith Bool Arith Lia Lqa.
From Coq Require Import ZifyBool ZifyNat.
From Verif Require Import Prelude PreludeFacts SpecBase SpecBaseFacts Sampling_Model Sampling_Spec Sampling_Proofs Parse_Spec Activity_Model Activity_Spec
  Activity_LabelProofs Time_Model Time_Spec Subgroup_Model Subgroup_Spec Subgroup_Properties Switch_Model Switch_Spec Switch_IndSpec Switch_ObsSpec
  Switch_Proofs Switch_CrestProofs Switch_IndProofs Switch_MidnightProofs Switch_RunProofs GTou_Proofs.
Import ListNotations.

Ltac Zify.zify_post_hook ::= Z.div_mod_to_equations.

(** ** C138: the population of Crest4StatesModel *)

(** The constructor succeeds whenever the sampling gives one count per subgroup.  The
    clock shows the start, the steps since the last refresh time have been made, and the
    households are ordered by subgroup. *)
Theorem C138_population : forall n d start algo w v u counts,
  crest_tables d -> (forall t q, unit_draws (u t q)) -> (forall q, unit_draws (v q)) -> (0 <= cd_refresh d < a_day)%Z -> length w = n ->
  sample_population n (cd_pdf d) algo w = Ok counts -> length counts = length (cd_residents d) -> (0 < n)%nat ->
  exists s0, crest_make n d start algo false w v u = Ok s0 /\ now s0 = start /\ step_size s0 = ten /\
    (exists b, latest_occurrence (cd_refresh d) start b /\ whole_steps ten b start (ticks s0)) /\
    length (cs_residents (user s0)) = n /\
    (forall g r h, at_ (cd_residents d) g r -> in_group counts g h -> at_ (cs_residents (user s0)) h r).
Proof. intros. eapply crest_population; eauto. Qed.
Print Assumptions C138_population.

(** The states at the beginning of the initialization are drawn from the pdf loaded for the day of
    the start; the simulator handed out is that one after the steps of the initialization. *)
Theorem C138_starting : forall n d start algo w v u s0,
  crest_tables d -> (forall t q, unit_draws (u t q)) -> (forall q, unit_draws (v q)) -> (0 <= cd_refresh d < a_day)%Z -> length w = n ->
  crest_make n d start algo false w v u = Ok s0 ->
  exists z0, now z0 = (start - ticks s0 * ten)%Z /\ ticks z0 = 0%Z /\ step_size z0 = ten /\ keys (user z0) = keys (user s0) /\
    iterate (Z.to_nat (ticks s0)) (crest_step d u) z0 = Ok s0 /\
    forall q b tpms labels pdf j x, at_ (cs_subs (user z0)) q b -> cd_load d (b_key b) (alike start) = Ok (tpms, labels, pdf) ->
      c_labels (b_chain b) = labels /\ (at_ (c_states (b_chain b)) j x -> selects pdf (v q j) x).
Proof.
  intros n d start algo w v u s0 H1 H2 H3 H4 H5 H6.
  destruct (crest_made d u start algo w v H1 H2 H3 H4 n false s0 H5 H6) as (counts & k0 & _ & _ & _ & _ & _ & _ & _ & _ & _ & H). exact H.
Qed.
Print Assumptions C138_starting.

(** With the default sampling any pdf over the subgroups will do. *)
Theorem C138_default : forall n d start w v u,
  crest_tables d -> (forall t q, unit_draws (u t q)) -> (forall q, unit_draws (v q)) -> (0 <= cd_refresh d < a_day)%Z -> length w = n ->
  is_pdf (cd_pdf d) -> length (cd_pdf d) = length (cd_residents d) -> (0 < n)%nat ->
  exists s0 counts, crest_make n d start RealPopulation false w v u = Ok s0 /\ length (cs_residents (user s0)) = n /\
    sample_population n (cd_pdf d) RealPopulation w = Ok counts /\ length counts = length (cd_pdf d) /\
    (forall g r h, at_ (cd_residents d) g r -> in_group counts g h -> at_ (cs_residents (user s0)) h r).
Proof.
  intros n d start w v u H1 H2 H3 H4 H5 H6 H7 Hn. destruct (real_population_quota n (cd_pdf d) w Hn H6) as (counts & E & Hl & _).
  destruct (C138_population n d start RealPopulation w v u counts H1 H2 H3 H4 H5 E ltac:(congruence) Hn) as (s0 & E0 & _ & _ & _ & G1 & G2).
  exists s0, counts. auto.
Qed.
Print Assumptions C138_default.

(** What the constructor refuses. *)
Theorem C138_errors : forall n d start algo w v u counts,
  crest_tables d -> (forall q, unit_draws (v q)) ->
  sample_population n (cd_pdf d) algo w = Ok counts -> length counts = length (cd_residents d) ->
  crest_make n d start algo true w v u = Err ValueError.
Proof.
  intros n d start algo w v u counts H1 H2 E Hl. unfold crest_make. rewrite E. cbn [bind].
  assert (Eg : sampled (cd_residents d) counts = Ok (filter (fun p => (0 <? snd p)%nat) (combine (cd_residents d) counts)))
    by (apply sampled_ok; auto).
  rewrite Eg. cbn [bind].
  assert (Hgr : forall g c, In (g, c) (filter (fun p => (0 <? snd p)%nat) (combine (cd_residents d) counts)) -> In g (cd_residents d) /\ (0 < c)%nat).
  { intros g c H. apply filter_In in H as [G1 G2]. split; [eapply in_combine_l; exact G1|]. cbn [snd] in G2. apply Nat.ltb_lt in G2. exact G2. }
  destruct (make_subs_ok Z Z (fun r => cd_load d r (weekdays_of (day_type_at start))) crest_size v
    (filter (fun p : Z * nat => (0 <? snd p)%nat) (combine (cd_residents d) counts)) 0) as (bs & Eb & _).
  { intros g c H. destruct (Hgr g c H). split; [|assumption]. apply good_tables; assumption. }
  { exact H2. }
  { intros g c tpms labels pdf H El. destruct (Hgr g c H) as [Hg _].
    destruct (H1 g (weekdays_of (day_type_at start)) Hg (weekdays_cases _)) as (t' & l' & p' & E' & _ & Hn).
    rewrite El in E'. injection E' as <- <- <-. unfold crest_size. rewrite <- Hn. lia. }
  rewrite Eb. reflexivity.
Qed.
Print Assumptions C138_errors.

(** A sample without any household is refused. *)
Theorem C138_nobody : forall n d start algo w v u counts,
  sample_population n (cd_pdf d) algo w = Ok counts -> length counts = length (cd_residents d) -> total_nat counts = 0%nat ->
  crest_make n d start algo false w v u = Err ValueError.
Proof.
  intros n d start algo w v u counts E Hl Hz. unfold crest_make. rewrite E. cbn [bind].
  assert (Eg : sampled (cd_residents d) counts = Ok (filter (fun p => (0 <? snd p)%nat) (combine (cd_residents d) counts)))
    by (apply sampled_ok; auto).
  assert (En : filter (fun p : Z * nat => (0 <? snd p)%nat) (combine (cd_residents d) counts) = []).
  { clear -Hz. generalize (cd_residents d) as rs. induction counts as [|c counts IH]; intros [|r rs]; try reflexivity.
    cbn [combine filter snd]. unfold total_nat in Hz. cbn [fold_right] in Hz. assert (c = 0%nat) as -> by lia. cbn. apply IH. unfold total_nat. lia. }
  rewrite Eg, En. reflexivity.
Qed.
Print Assumptions C138_nobody.

Theorem C138_unknown_algorithm : forall n d start has_step w v u, is_pdf (cd_pdf d) ->
  crest_make n d start OtherAlgo has_step w v u = Err NotImplementedError.
Proof. intros n d start hs w v u H. unfold crest_make, sample_population. rewrite (check_pdf_ok _ H). reflexivity. Qed.
Print Assumptions C138_unknown_algorithm.

(** Demonstration data: households of one resident; nobody changes state but with matrix
    [which] of the weekend or of the week. *)
Definition stay : list (list Q) := [[1;0;0;0];[0;1;0;0];[0;0;1;0];[0;0;0;1]].
Definition turned : list (list Q) := [[0;1;0;0];[0;0;1;0];[0;0;0;1];[1;0;0;0]].
Definition demo_tables (which : list Z -> nat -> bool) (days : list Z) : list (list (list Q)) :=
  map (fun j => if which days j then turned else stay) (seq 0 144).
Definition demo (which : list Z -> nat -> bool) : crest_data :=
  mkCrestData [1%Z] [1] (fun _ days => Ok (demo_tables which days, [0; 1; 10; 11]%Z, [1; 0; 0; 0])) 0.
Definition half (t : Z) (q j : nat) : Q := 1 # 2.
Definition start_states (q j : nat) : Q := 1 # 2.
(** Midnight of Friday 0001-01-05. *)
Definition a_friday : Z := (4 * a_day)%Z.
Definition demo_run (which : list Z -> nat -> bool) (start : Z) (m : nat) : result (tsim crest_state) :=
  bind (crest_make 1 (demo which) start RealPopulation false [0] start_states half) (iterate m (crest_step (demo which) half)).
Definition states_of (r : result (tsim crest_state)) : option (Z * list (list nat)) :=
  match r with Ok s => Some (now s, map (fun b => c_states (b_chain b)) (cs_subs (user s))) | Err _ => None end.

Lemma stochastic_rows : forall m, m = stay \/ m = turned -> stochastic 4 m.
Proof.
  intros m [->| ->]; split; try reflexivity; intros i0 r Hrow; apply at_in in Hrow; destruct Hrow as [<-|[<-|[<-|[<-|[]]]]]; split; try reflexivity; split;
    try (intros [|[|[|[|[|i]]]]] x Hx; unfold at_ in Hx; simpl in Hx; try discriminate; injection Hx as <-; lra); vm_compute; reflexivity.
Qed.

Lemma demo_ok : forall which, crest_tables (demo which).
Proof.
  intros which r days [<-|[]] _. exists (demo_tables which days), [0; 1; 10; 11]%Z, [1; 0; 0; 0]. split; [reflexivity|]. split; [|reflexivity].
  split; [discriminate|]. split; [discriminate|]. split.
  - intros t m H. apply at_in, in_map_iff in H as (j & <- & _). apply stochastic_rows. destruct (which days j); auto.
  - split; [reflexivity|]. split; [|vm_compute; reflexivity].
    intros [|[|[|[|[|i]]]]] x Hx; unfold at_ in Hx; simpl in Hx; try discriminate; injection Hx as <-; lra.
Qed.

Lemma half_unit : forall t q, unit_draws (half t q).
Proof. intros t q j. unfold half. lra. Qed.

Lemma start_unit : forall q, unit_draws (start_states q).
Proof. intros q j. unfold start_states. lra. Qed.

Example C138_example :
  let d := mkCrestData [1; 2; 3]%Z [1#2; 0; 1#2] (fun r _ => Ok ([repeat (1 :: repeat 0 (Z.to_nat ((r + 1) * (r + 1) - 1))) (Z.to_nat ((r + 1) * (r + 1)))],
             map Z.of_nat (seq 0 (Z.to_nat ((r + 1) * (r + 1)))), 1 :: repeat 0 (Z.to_nat ((r + 1) * (r + 1) - 1)))) 0 in
  match crest_make 4 d (a_friday + 1500000000)%Z RealPopulation false [0; 0; 0; 0] start_states half with
  | Ok s => cs_residents (user s) = [1; 1; 3; 3]%Z /\ ticks s = 2%Z /\ now s = (a_friday + 1500000000)%Z /\ map (@b_key Z Z) (cs_subs (user s)) = [1; 3]%Z
  | Err _ => False
  end /\
  crest_make 4 d a_friday RealPopulation true [0; 0; 0; 0] start_states half = Err ValueError /\
  crest_make 0 d a_friday RealPopulation false [] start_states half = Err ValueError.
Proof. vm_compute. repeat split. Qed.

(** ** C139: every run of Crest4StatesModel *)

(** A run of any length succeeds.  Each step moves the households of every subgroup with
    the matrix that the calendar designates, and changes the tables after the steps begun at
    the refresh time that end in a day of the other kind. *)
Theorem C139_execution : forall n d start algo w v u s0,
  crest_tables d -> (forall t q, unit_draws (u t q)) -> (forall q, unit_draws (v q)) -> (0 <= cd_refresh d < a_day)%Z -> length w = n ->
  crest_make n d start algo false w v u = Ok s0 ->
  forall m, exists s s' days days' k,
    let first := (start - ticks s0 * ten)%Z in
    iterate m (crest_step d u) s0 = Ok s /\ crest_step d u s = Ok s' /\
    now s = (start + Z.of_nat m * ten)%Z /\ now s' = (now s + ten)%Z /\ ticks s = (ticks s0 + Z.of_nat m)%Z /\
    keys (user s') = keys (user s0) /\ cs_residents (user s') = cs_residents (user s0) /\
    in_force (cd_refresh d) start first (now s) days /\ in_force (cd_refresh d) start first (now s') days' /\
    matrix_number (cd_refresh d) start first (now s) k /\
    length (cs_subs (user s)) = length (cs_subs (user s')) /\
    forall q b, at_ (cs_subs (user s)) q b -> exists b', at_ (cs_subs (user s')) q b' /\ sub_moves d days days' k (u (ticks s) q) b b'.
Proof. intros. eapply crest_execution; eauto. Qed.
Print Assumptions C139_execution.

(** The calendar designates one kind of days and one matrix. *)
Theorem C139_functional : forall r start first t days days' k k',
  in_force r start first t days -> in_force r start first t days' -> matrix_number r start first t k -> matrix_number r start first t k' ->
  days = days' /\ k = k'.
Proof.
  intros r start first t days days' k k' H1 H2 H3 H4. split; [eapply in_force_fun; eauto|].
  destruct H3 as [(b & [Hb Hl] & Hk)|[Hn Hk]]; destruct H4 as [(b' & [Hb' Hl'] & Hk')|[Hn' Hk']].
  - pose proof (Hl b' Hb'). pose proof (Hl' b Hb). unfold ten in *. lia.
  - exfalso. exact (Hn' b Hb).
  - exfalso. exact (Hn b' Hb').
  - unfold ten in *. lia.
Qed.
Print Assumptions C139_functional.

(** A run of two steps from Saturday at midnight: the second step uses matrix 2 of the
    weekend, in which everybody changes state. *)
Example C139_example :
  let which days j := (length days =? 2)%nat && (j =? 2)%nat in
  states_of (demo_run which (a_friday + a_day) 1) = Some ((a_friday + a_day + ten)%Z, [[0%nat]]) /\
  states_of (demo_run which (a_friday + a_day) 2) = Some ((a_friday + a_day + 2 * ten)%Z, [[1%nat]]).
Proof. vm_compute. auto. Qed.

(** ** C140: the tables of the day *)

(** With the refresh time of CREST (midnight), matrices for the 144 slots of ten minutes
    and a start on that grid: but for the step begun at midnight the tables are those of
    the kind of the day, and the matrix is that of the slot once the kind has changed, that of the
    next slot before. *)
Theorem C140_slots_partial : forall n d start algo w v u s0,
  crest_tables d -> (forall t q, unit_draws (u t q)) -> (forall q, unit_draws (v q)) -> length w = n ->
  crest_make n d start algo false w v u = Ok s0 -> cd_refresh d = 0%Z -> (ten | start)%Z ->
  forall m, let midnight := (start - start mod a_day)%Z in let t := (start + Z.of_nat m * ten)%Z in
    exists s s' days days' k, iterate m (crest_step d u) s0 = Ok s /\ crest_step d u s = Ok s' /\ now s = t /\
      (t mod a_day <> 0 -> days = alike t)%Z /\ (t mod a_day = 0 -> midnight < t -> days = alike (t - 1))%Z /\ (t = midnight -> days = alike t)%Z /\
      days' = alike t /\
      ((exists b, turn midnight t b) -> (Z.of_nat k mod 144 = slot t)%Z) /\
      ((forall b, ~ turn midnight t b) -> (Z.of_nat k mod 144 = (slot t + 1) mod 144)%Z) /\
      forall q b, at_ (cs_subs (user s)) q b -> exists b', at_ (cs_subs (user s')) q b' /\ sub_moves d days days' k (u (ticks s) q) b b'.
Proof.
  intros n d start algo w v u s0 H1 H2 H3 H4 H5 H6 H7. eapply crest_midnight; eauto. rewrite H6. unfold a_day. lia.
Qed.
Print Assumptions C140_slots_partial.

(** Runs compared by computation. *)
Definition run_from (d : crest_data) (u : Z -> nat -> nat -> Q) (start : Z) (m : nat) : result (tsim crest_state) :=
  bind (crest_make 1 d start RealPopulation false [0] start_states u) (iterate m (crest_step d u)).
Definition labelled (r : result (list Z)) (l : list Z) : bool :=
  match r with Ok l' => if list_eq_dec Z.eq_dec l' l then true else false | Err _ => false end.
Definition diverge (d : crest_data) (u : Z -> nat -> nat -> Q) (start start' : Z) (m m' : nat) : bool :=
  match run_from d u start m, run_from d u start' m' with
  | Ok s, Ok s' => (now s =? now s')%Z && day_type_eqb (cs_type (user s)) (cs_type (user s')) &&
      labelled (crest_labels (user s)) [0%Z] && labelled (crest_labels (user s')) [0%Z] &&
      match crest_step d u s, crest_step d u s' with
      | Ok r, Ok r' => labelled (crest_labels (user r)) [0%Z] && labelled (crest_labels (user r')) [1%Z]
      | _, _ => false
      end
  | _, _ => false
  end.

Lemma labelled_ok : forall r l, labelled r l = true -> r = Ok l.
Proof. intros [l'|e] l H; [|discriminate]. cbn in H. destruct (list_eq_dec Z.eq_dec l' l); [congruence|discriminate]. Qed.

Lemma diverge_ok : forall d u start start' m m', diverge d u start start' m m' = true -> exists s0 s0' s s' r r',
  crest_make 1 d start RealPopulation false [0] start_states u = Ok s0 /\ crest_make 1 d start' RealPopulation false [0] start_states u = Ok s0' /\
  iterate m (crest_step d u) s0 = Ok s /\ iterate m' (crest_step d u) s0' = Ok s' /\
  now s = now s' /\ crest_labels (user s) = crest_labels (user s') /\ cs_type (user s) = cs_type (user s') /\
  crest_step d u s = Ok r /\ crest_step d u s' = Ok r' /\ crest_labels (user r) <> crest_labels (user r').
Proof.
  intros d u start start' m m' H. unfold diverge, run_from in H.
  destruct (crest_make 1 d start RealPopulation false [0] start_states u) as [s0|] eqn:E0; [|discriminate]. cbn [bind] in H.
  destruct (iterate m (crest_step d u) s0) as [s|] eqn:Es; [|discriminate].
  destruct (crest_make 1 d start' RealPopulation false [0] start_states u) as [s0'|] eqn:E0'; [|discriminate]. cbn [bind] in H.
  destruct (iterate m' (crest_step d u) s0') as [s'|] eqn:Es'; [|discriminate].
  apply andb_prop in H as [H H5]. apply andb_prop in H as [H H4]. apply andb_prop in H as [H H3]. apply andb_prop in H as [H1 H2].
  destruct (crest_step d u s) as [r|] eqn:Er; [|discriminate]. destruct (crest_step d u s') as [r'|] eqn:Er'; [|discriminate].
  apply andb_prop in H5 as [H5 H6]. apply labelled_ok in H3, H4, H5, H6. apply Z.eqb_eq in H1.
  exists s0, s0', s, s', r, r'. repeat (split; [first [assumption|reflexivity|congruence]|]).
  split. { destruct (cs_type (user s)), (cs_type (user s')); try reflexivity; discriminate. }
  split; [exact Er|]. split; [exact Er'|]. congruence.
Qed.

(** The matrix of an instant depends on when the simulation started: two simulators with
    the same data, at the same instant of Saturday, in the same states and with the same
    draws, move to different states. *)
Theorem C140_history_refuted : exists d draw start start' s0 s0' m m' s s' r r',
  let u := fun (_ : Z) (_ _ : nat) => draw in
  crest_tables d /\ (forall t q, unit_draws (u t q)) /\ (ten | start)%Z /\ (ten | start')%Z /\ cd_refresh d = 0%Z /\
  crest_make 1 d start RealPopulation false [0] start_states u = Ok s0 /\ crest_make 1 d start' RealPopulation false [0] start_states u = Ok s0' /\
  iterate m (crest_step d u) s0 = Ok s /\ iterate m' (crest_step d u) s0' = Ok s' /\
  now s = now s' /\ crest_labels (user s) = crest_labels (user s') /\ cs_type (user s) = cs_type (user s') /\
  crest_step d u s = Ok r /\ crest_step d u s' = Ok r' /\ crest_labels (user r) <> crest_labels (user r').
Proof.
  exists (demo (fun days j => (length days =? 2)%nat && (j =? 2)%nat)), (1 # 2), a_friday, (a_friday + a_day)%Z.
  destruct (diverge_ok (demo (fun days j => (length days =? 2)%nat && (j =? 2)%nat)) (fun _ _ _ => 1 # 2) a_friday (a_friday + a_day) 145 1)
    as (s0 & s0' & s & s' & r & r' & H); [vm_compute; reflexivity|].
  exists s0, s0', 145%nat, 1%nat, s, s', r, r'. cbv zeta.
  split; [apply demo_ok|]. split; [exact half_unit|]. split; [exists 576%Z; reflexivity|]. split; [exists 720%Z; reflexivity|]. split; [reflexivity|].
  exact H.
Qed.
Print Assumptions C140_history_refuted.

Definition moved (d : crest_data) (u : Z -> nat -> nat -> Q) (start t : Z) : bool :=
  match run_from d u start 1 with
  | Ok s => (now s =? t)%Z && labelled (crest_labels (user s)) [11%Z] &&
      match crest_step d u s with Ok s' => labelled (crest_labels (user s')) [0%Z] | Err _ => false end
  | Err _ => false
  end.

Lemma moved_ok : forall d u start t, moved d u start t = true -> exists s0 s s',
  crest_make 1 d start RealPopulation false [0] start_states u = Ok s0 /\ crest_step d u s0 = Ok s /\ now s = t /\
  crest_step d u s = Ok s' /\ crest_labels (user s) = Ok [11%Z] /\ crest_labels (user s') = Ok [0%Z].
Proof.
  intros d u start t H. unfold moved, run_from in H.
  destruct (crest_make 1 d start RealPopulation false [0] start_states u) as [s0|] eqn:E0; [|discriminate]. cbn [bind iterate] in H.
  destruct (crest_step d u s0) as [s|] eqn:Es; [|discriminate]. cbn [bind] in H. apply andb_prop in H as [H H3]. apply andb_prop in H as [H1 H2].
  destruct (crest_step d u s) as [s'|] eqn:Es'; [|discriminate]. apply labelled_ok in H2, H3. apply Z.eqb_eq in H1.
  exists s0, s, s'. auto 10.
Qed.

(** The first ten minutes of a Saturday follow the tables of the week: nobody changes state at
    the weekend, and yet somebody does. *)
Theorem C140_midnight_refuted : exists d u start s0 s s',
  crest_tables d /\ (forall t q, unit_draws (u t q)) /\ (ten | start)%Z /\ cd_refresh d = 0%Z /\
  crest_make 1 d start RealPopulation false [0] start_states u = Ok s0 /\ crest_step d u s0 = Ok s /\
  alike (now s) = [6; 7]%Z /\
  (forall g tpms labels pdf t m, cd_load d g [6; 7]%Z = Ok (tpms, labels, pdf) -> at_ tpms t m -> m = stay) /\
  crest_step d u s = Ok s' /\ crest_labels (user s) = Ok [11%Z] /\ crest_labels (user s') = Ok [0%Z].
Proof.
  destruct (moved_ok (demo (fun days j => (length days =? 5)%nat && ((j =? 0)%nat || (j =? 1)%nat || (j =? 143)%nat))) half (a_friday + 143 * ten) (5 * a_day))
    as (s0 & s & s' & E0 & Es & Hnow & H); [vm_compute; reflexivity|].
  do 3 eexists. exists s0, s, s'. split; [apply demo_ok|]. split; [exact half_unit|]. split; [|split; [|split; [exact E0|]]].
  - exists 719%Z. reflexivity.
  - reflexivity.
  - split; [exact Es|]. split; [rewrite Hnow; reflexivity|]. split; [|exact H].
    intros g tpms labels pdf t m E Hm. cbn [demo cd_load] in E. injection E as <- <- <-. apply at_in, in_map_iff in Hm as (j & <- & _). reflexivity.
Qed.
Print Assumptions C140_midnight_refuted.

(** A start that is not a whole number of steps away from the refresh time: the tables of the
    day of the start are used for ever. *)
Theorem C140_misaligned : forall n d start algo w v u s0,
  crest_tables d -> (forall t q, unit_draws (u t q)) -> (forall q, unit_draws (v q)) -> (0 <= cd_refresh d < a_day)%Z -> length w = n ->
  crest_make n d start algo false w v u = Ok s0 -> ~ (ten | start - cd_refresh d)%Z ->
  forall m, exists s s' k,
    iterate m (crest_step d u) s0 = Ok s /\ crest_step d u s = Ok s' /\ ((Z.of_nat k - 1) * ten = now s - (start - ticks s0 * ten))%Z /\
    forall q b, at_ (cs_subs (user s)) q b -> exists b', at_ (cs_subs (user s')) q b' /\
      sub_moves d (alike start) (alike start) k (u (ticks s) q) b b'.
Proof. intros. eapply crest_misaligned; eauto. Qed.
Print Assumptions C140_misaligned.

(** Started on Friday at 23:55, the households still follow the tables of the week on Saturday. *)
Example C140_example :
  let which (days : list Z) (j : nat) := (length days =? 5)%nat in
  states_of (demo_run which (a_friday + 143 * ten) 3) = Some ((a_friday + 146 * ten)%Z, [[1%nat]]) /\
  states_of (demo_run which (a_friday + 143 * ten + 300000000) 3) = Some ((a_friday + 146 * ten + 300000000)%Z, [[2%nat]]) /\
  slot (a_friday + 146 * ten) = 2%Z /\ turn a_friday (a_friday + 146 * ten) (a_friday + a_day).
Proof. cbv zeta. split; [vm_compute; reflexivity|]. split; [vm_compute; reflexivity|]. split; [reflexivity|]. split; [|discriminate]. unfold a_friday, a_day, ten. lia. Qed.

(** ** C141: what Crest4StatesModel reports *)

(** At every moment there is one label per household, among the labels loaded for its
    number of residents and the kind of days in force. *)
Theorem C141_labels : forall n d start algo w v u s0,
  crest_tables d -> (forall t q, unit_draws (u t q)) -> (forall q, unit_draws (v q)) -> (0 <= cd_refresh d < a_day)%Z -> length w = n ->
  crest_make n d start algo false w v u = Ok s0 ->
  forall m, exists s days ls,
    iterate m (crest_step d u) s0 = Ok s /\ in_force (cd_refresh d) start (start - ticks s0 * ten) (now s) days /\
    crest_labels (user s) = Ok ls /\ length ls = n /\ length (cs_residents (user s)) = n /\
    (forall f, crest_getter f (user s) = Ok (map f ls)) /\
    forall h lab r, at_ ls h lab -> at_ (cs_residents (user s)) h r ->
      exists tpms labels pdf, cd_load d r days = Ok (tpms, labels, pdf) /\ In lab labels.
Proof. intros. eapply crest_labelled; eauto. Qed.
Print Assumptions C141_labels.

(** Labels of two digits, occupants then active persons, at most [r] <= 9 of each. *)
Definition two_digits (d : crest_data) : Prop :=
  forall r days tpms labels pdf lab, In r (cd_residents d) -> cd_load d r days = Ok (tpms, labels, pdf) -> In lab labels ->
    exists h a, lab = (10 * h + a)%Z /\ (0 <= h <= r)%Z /\ (0 <= a <= r)%Z /\ (r <= 9)%Z.

(** Then along every run active persons are occupants, occupants are residents, and the
    thermal gains are those of the active and of the dormant occupants. *)
Theorem C141_occupancy : forall n d start algo w v u s0,
  crest_tables d -> two_digits d -> (forall t q, unit_draws (u t q)) -> (forall q, unit_draws (v q)) -> (0 <= cd_refresh d < a_day)%Z -> length w = n ->
  crest_make n d start algo false w v u = Ok s0 ->
  forall m, exists s occ act gains, iterate m (crest_step d u) s0 = Ok s /\
    crest_getter crest_occupancy (user s) = Ok occ /\ crest_getter crest_active (user s) = Ok act /\ crest_getter crest_thermal (user s) = Ok gains /\
    length occ = n /\ length act = n /\ length gains = n /\
    forall h r, at_ (cs_residents (user s)) h r -> exists o a, at_ occ h o /\ at_ act h a /\ at_ gains h (147 * a + 84 * (o - a))%Z /\ (0 <= a <= o)%Z /\ (o <= r)%Z.
Proof.
  intros n d start algo w v u s0 H1 H2 H3 H4 H5 H6 H7 m.
  destruct (C141_labels n d start algo w v u s0 H1 H3 H4 H5 H6 H7 m) as (s & days & ls & E & Hin & El & Hl & Hlr & Hf & Hk).
  exists s, (map crest_occupancy ls), (map crest_active ls), (map crest_thermal ls). split; [exact E|]. split; [apply Hf|]. split; [apply Hf|]. split; [apply Hf|].
  rewrite !map_length. split; [exact Hl|]. split; [exact Hl|]. split; [exact Hl|]. intros h r Hr.
  pose proof (at_lt _ _ _ _ Hr) as Hlt. rewrite Hlr, <- Hl in Hlt. destruct (lt_at _ _ _ Hlt) as [lab Hlab].
  destruct (Hk h lab r Hlab Hr) as (tpms & labels & pdf & Eload & Hin').
  assert (Hres : In r (cd_residents d)).
  { destruct (crest_made d u start algo w v H1 H3 H4 H5 n false s0 H6 H7) as (counts & k0 & _ & _ & Hlen & _ & _ & _ & _ & _ & Hr0 & _).
    destruct (C139_execution n d start algo w v u s0 H1 H3 H4 H5 H6 H7 m) as (x & x' & _ & _ & _ & Ex & _).
    assert (Hs : cs_residents (user s) = cs_residents (user s0)).
    { destruct (crest_at n d start algo w v u H1 H3 H4 H5 H6 s0 H7 m) as (y & _ & Ey & _ & _ & _ & Hy). rewrite E in Ey. injection Ey as <-. exact Hy. }
    rewrite Hs, Hr0 in Hr. apply at_in in Hr. unfold expand_residents in Hr. apply in_concat in Hr as (l & Hl1 & Hl2).
    clear - Hl1 Hl2. revert counts Hl1. induction (cd_residents d) as [|x rs IH]; intros [|c cs] Hl1; try contradiction.
    cbn [map2] in Hl1. destruct Hl1 as [<-|Hl1]; [left; symmetry; eapply repeat_spec; exact Hl2|right; eapply IH; exact Hl1]. }
  destruct (H2 r days tpms labels pdf lab Hres Eload Hin') as (o & a & -> & Ho & Ha & Hr9).
  destruct (digits_occupancy r o a Ho Ha Hr9) as (D1 & D2 & D3).
  exists o, (Z.min o a). unfold at_ in *. rewrite !nth_error_map, Hlab. cbn [option_map]. rewrite D1, D2, D3. repeat split; lia.
Qed.
Print Assumptions C141_occupancy.

Example C141_example : match demo_run (fun _ _ => true) a_friday 3 with
  | Ok s => crest_labels (user s) = Ok [11]%Z /\ crest_getter crest_occupancy (user s) = Ok [1]%Z /\ crest_getter crest_active (user s) = Ok [1]%Z /\
      crest_getter crest_thermal (user s) = Ok [147]%Z
  | Err _ => False end /\ two_digits (demo (fun _ _ => true)).
Proof.
  split; [vm_compute; auto|]. intros r days tpms labels pdf lab [<-|[]] E H. cbn in E. injection E as _ <- _.
  destruct H as [<-|[<-|[<-|[<-|[]]]]]; [exists 0%Z, 0%Z|exists 0%Z, 1%Z|exists 1%Z, 0%Z|exists 1%Z, 1%Z]; lia.
Qed.

(** ** C142: every run of SubgroupsIndividualsActivitySimulator *)

Theorem C142_population : forall cmp d kind u v persons start kw,
  total_order cmp -> flags kind = ind_flags d -> ind_tables d kind persons -> (forall t q, unit_draws (u t q)) -> (forall q, unit_draws (v q)) ->
  (0 <= id_refresh d < a_day)%Z -> (a_day <= start)%Z -> persons <> [] -> (forall z, kw = Some z -> z = ten) ->
  exists s0, ind_make cmp d persons start kw v u = Ok s0 /\ now s0 = start /\ step_size s0 = ten /\
    (exists b, latest_occurrence (id_refresh d) start b /\ whole_steps ten b start (ticks s0)) /\
    length (user s0) = length persons /\
    (forall q b g n, at_ (user s0) q b -> at_ persons q (g, n) -> c_n (b_chain b) = n /\ length (c_states (b_chain b)) = n).
Proof. intros. eapply ind_population; eauto. Qed.
Print Assumptions C142_population.

(** The states at the beginning of the initialization are drawn from the pdf loaded for the person
    without the date. *)
Theorem C142_starting : forall cmp d kind u v persons start kw s0,
  total_order cmp -> flags kind = ind_flags d -> ind_tables d kind persons -> (forall t q, unit_draws (u t q)) -> (forall q, unit_draws (v q)) ->
  (0 <= id_refresh d < a_day)%Z -> (a_day <= start)%Z -> ind_make cmp d persons start kw v u = Ok s0 ->
  exists z0, now z0 = (start - ticks s0 * ten)%Z /\ ticks z0 = 0%Z /\ step_size z0 = ten /\
    iterate (Z.to_nat (ticks s0)) (ind_step cmp d u) z0 = Ok s0 /\
    map (fun b => (b_key b, c_n (b_chain b))) (user z0) = persons /\
    forall q b tpms labels pdf j x, at_ (user z0) q b -> id_load d (b_key b) = Ok (tpms, labels, pdf) ->
      c_labels (b_chain b) = labels /\ (at_ (c_states (b_chain b)) j x -> selects pdf (v q j) x).
Proof.
  intros cmp d kind u v persons start kw s0 H1 H2 H3 H4 H5 H6 H7 H8.
  destruct (ind_made cmp d kind u v persons start kw H1 H2 H3 H4 H5 H6 H7 s0 H8) as (k & _ & _ & _ & _ & _ & _ & H). exact H.
Qed.
Print Assumptions C142_starting.

(** A run of any length succeeds.  The tables are those of the person, with the date of
    the end of the last step begun at the refresh time when the simulator uses the calendar; the matrix is
    counted from that step. *)
Theorem C142_execution : forall cmp d kind u v persons start kw s0,
  total_order cmp -> flags kind = ind_flags d -> ind_tables d kind persons -> (forall t q, unit_draws (u t q)) -> (forall q, unit_draws (v q)) ->
  (0 <= id_refresh d < a_day)%Z -> (a_day <= start)%Z -> ind_make cmp d persons start kw v u = Ok s0 ->
  forall m, exists s s' k, let first := (start - ticks s0 * ten)%Z in
    iterate m (ind_step cmp d u) s0 = Ok s /\ ind_step cmp d u s = Ok s' /\
    now s = (start + Z.of_nat m * ten)%Z /\ now s' = (now s + ten)%Z /\ ticks s = (ticks s0 + Z.of_nat m)%Z /\
    renewed_number (id_aware d) (id_refresh d) first (now s) k /\
    length (user s) = length persons /\ length (user s') = length persons /\
    (forall q b g n, at_ (user s) q b -> at_ persons q (g, n) ->
       key_in_force (id_aware d) kind (id_quarters d) (id_refresh d) first (now s) g (b_key b) /\ c_n (b_chain b) = n) /\
    forall q b, at_ (user s) q b -> exists b', at_ (user s') q b' /\
      ind_moves d ((now s mod a_day)%Z = id_refresh d) k (u (ticks s) q) b b'.
Proof. intros. eapply ind_execution; eauto. Qed.
Print Assumptions C142_execution.

(** A step size other than ten minutes is refused. *)
Theorem C142_step_size : forall cmp d persons start z v u,
  (forall g n, In (g, n) persons -> (0 < n)%nat /\ exists tpms labels pdf, id_load d g = Ok (tpms, labels, pdf) /\ fitting tpms labels pdf) ->
  (forall q, unit_draws (v q)) -> z <> ten -> ind_make cmp d persons start (Some z) v u = Err ValueError.
Proof.
  intros cmp d persons start z v u H1 H2 Hz. unfold ind_make.
  destruct (make_subs_ok string subgroup (id_load d) (fun _ labels => length labels) v persons 0) as (bs & Eb & _).
  { intros g n H. destruct (H1 g n H) as (G1 & G2). auto. } { exact H2. } { reflexivity. }
  rewrite Eb. cbn [bind]. destruct (_ =? 0)%nat; [reflexivity|]. destruct (Z.eqb_spec z ten_minutes); [contradiction|reflexivity].
Qed.
Print Assumptions C142_step_size.

(** Flags that exclude each other are only refused when the tables are first renewed. *)
Theorem C142_flags : forall cmp d s, user s <> [] ->
  (forall kind, flags kind <> ind_flags d) -> ind_refresh cmp d s = Err ValueError.
Proof.
  intros cmp d s Hne Hf. unfold ind_refresh.
  assert (Ha : id_aware d = true).
  { unfold id_aware. destruct (id_ends d) eqn:E1, (id_sat_sun d) eqn:E2, (id_7days d) eqn:E3, (id_quarters d); try reflexivity;
    exfalso; apply (Hf NoDays); unfold ind_flags; rewrite E1, E2, E3; reflexivity. }
  rewrite Ha. destruct (user s) as [|b l]; [congruence|]. cbn [mapM].
  destruct (C55_flags (b_key b) (now s) (id_ends d) (id_sat_sun d) (id_7days d) (id_quarters d)) as [_ H]. rewrite (H Hf). reflexivity.
Qed.
Print Assumptions C142_flags.

(** The calendar is followed exactly when one of the four flags is set. *)
Theorem C142_aware : forall d, id_aware d = true <->
  id_ends d = true \/ id_7days d = true \/ id_quarters d = true \/ id_sat_sun d = true.
Proof.
  intro d. unfold id_aware. rewrite !orb_true_iff. tauto.
Qed.
Print Assumptions C142_aware.

(** ** C143: the date of the tables of individuals *)

(** Calendar part of the next theorem. *)
Lemma fresh : forall d kind r first t k g key,
  id_aware d = true -> (0 <= r < a_day)%Z -> (ten | first - r)%Z -> (first mod a_day = r)%Z -> (first < t)%Z -> (ten | t - first)%Z ->
  renewed_number (id_aware d) r first t k -> key_in_force (id_aware d) kind (id_quarters d) r first t g key ->
  exists b, (b mod a_day = r)%Z /\ (0 < t - b <= a_day)%Z /\ (Z.of_nat k * ten = t - b)%Z /\ (1 <= k <= 144)%nat /\ dated kind (id_quarters d) (b + ten) g key.
Proof.
  intros d kind r first t k g key Ha Hr Hg Hm Hlt Hd Hk Hkey. rewrite Ha in *.
  set (b := (t - 1 - (t - 1 - first) mod a_day)%Z).
  assert (Hb : last_of (refreshed r first t) b).
  { split.
    - unfold refreshed, b. split; [unfold a_day in *; lia|]. split; [unfold a_day in *; lia|].
      exists (144 * ((t - 1 - first) / a_day))%Z. unfold a_day, ten in *. lia.
    - intros b' (H1 & H2 & _). unfold b, a_day in *. lia. }
  assert (Hsame : forall b', last_of (refreshed r first t) b' -> b' = b).
  { intros b' [H1 H2]. pose proof (H2 b (proj1 Hb)). destruct Hb as [Hb1 Hb2]. pose proof (Hb2 b' H1). lia. }
  exists b. destruct Hk as [(_ & b1 & Hb1 & Hk1)|[[?|Hno] _]]; [|discriminate|exfalso; exact (Hno b (proj1 Hb))]. rewrite (Hsame b1 Hb1) in Hk1.
  destruct Hkey as [(_ & b2 & Hb2 & Hk2)|[[?|Hno] _]]; [|discriminate|exfalso; exact (Hno b (proj1 Hb))]. rewrite (Hsame b2 Hb2) in Hk2.
  destruct Hb as [(G1 & G2 & G3) G4]. split; [exact G1|].
  assert (Hday : (0 < t - b <= a_day)%Z) by (unfold b, a_day; lia). split; [exact Hday|]. split; [exact Hk1|]. split; [|exact Hk2].
  unfold a_day, ten in *. lia.
Qed.

Lemma on_grid : forall start r tk b m, (0 <= r < a_day)%Z -> latest_occurrence r start b -> whole_steps ten b start tk ->
  (ten | start - r)%Z -> (0 < tk + Z.of_nat m)%Z ->
  ((start - tk * ten) mod a_day = r)%Z /\ (start - tk * ten < start + Z.of_nat m * ten)%Z /\
  (ten | start + Z.of_nat m * ten - (start - tk * ten))%Z /\ (ten | start - tk * ten - r)%Z.
Proof.
  intros start r tk b m Hr (O1 & O2 & O3) Hw [j Hj] Hp. change us_per_day with a_day in *.
  assert (Hb0 : b = (start - (start - r) mod a_day)%Z).
  { specialize (O3 (start - (start - r) mod a_day)%Z). unfold a_day in *. lia. }
  unfold whole_steps in Hw. clear O3.
  assert (Hfirst : (start - tk * ten = b)%Z) by (unfold a_day, ten in *; lia).
  split; [rewrite Hfirst; exact O2|]. split; [clear - Hp; unfold ten; lia|]. split; [exists (tk + Z.of_nat m)%Z; ring|].
  exists (j - tk)%Z. rewrite Z.mul_sub_distr_r, <- Hj. ring.
Qed.

(** From a start on the grid of the refresh time, every step but the one begun at the first refresh
    uses the tables of a date at most one day old, and the matrix whose number is the number
    of steps since. *)
Theorem C143_fresh_partial : forall cmp d kind u v persons start kw s0,
  total_order cmp -> flags kind = ind_flags d -> ind_tables d kind persons -> (forall t q, unit_draws (u t q)) -> (forall q, unit_draws (v q)) ->
  (0 <= id_refresh d < a_day)%Z -> (a_day <= start)%Z -> ind_make cmp d persons start kw v u = Ok s0 ->
  id_aware d = true -> (ten | start - id_refresh d)%Z ->
  forall m, (0 < ticks s0 + Z.of_nat m)%Z -> exists s s' k b,
    iterate m (ind_step cmp d u) s0 = Ok s /\ ind_step cmp d u s = Ok s' /\ now s = (start + Z.of_nat m * ten)%Z /\
    (b mod a_day = id_refresh d)%Z /\ (0 < now s - b <= a_day)%Z /\ (Z.of_nat k * ten = now s - b)%Z /\ (1 <= k <= 144)%nat /\
    forall q x g n, at_ (user s) q x -> at_ persons q (g, n) -> dated kind (id_quarters d) (b + ten) g (b_key x) /\
      exists x', at_ (user s') q x' /\ ind_moves d ((now s mod a_day)%Z = id_refresh d) k (u (ticks s) q) x x'.
Proof.
  intros cmp d kind u v persons start kw s0 Hc Hf Ht Hu Hv Hr Hs Hmade Ha Hgrid m Hpos.
  destruct (C142_execution cmp d kind u v persons start kw s0 Hc Hf Ht Hu Hv Hr Hs Hmade m)
    as (s & s' & k & E & E' & Hnow & _ & _ & Hk & _ & _ & Hkey & Hq).
  destruct (ind_made cmp d kind u v persons start kw Hc Hf Ht Hu Hv Hr Hs s0 Hmade) as (_ & _ & _ & _ & _ & Hf0 & (b0 & (O1 & O2 & O3) & Hw) & _).
  destruct (on_grid start (id_refresh d) (ticks s0) b0 m Hr (conj O1 (conj O2 O3)) Hw Hgrid Hpos) as (Hm & Hlt & Hd & Hg).
  rewrite <- Hnow in Hlt, Hd. set (r := id_refresh d) in *.
  destruct persons as [|[g0 n0] ps] eqn:Ep; [unfold ind_make in Hmade; cbn in Hmade; discriminate|]. rewrite <- Ep in *.
  assert (Hx : exists x, at_ (user s) 0 x).
  { destruct (C142_execution cmp d kind u v persons start kw s0 Hc Hf Ht Hu Hv Hr Hs Hmade m) as (y & _ & _ & Ey & _ & _ & _ & _ & _ & Hl & _).
    rewrite E in Ey. injection Ey as <-. apply lt_at. rewrite Hl, Ep. cbn [length]. lia. }
  destruct Hx as [x0 Hx0]. assert (Hp0 : at_ persons 0 (g0, n0)) by (rewrite Ep; reflexivity).
  destruct (Hkey 0%nat x0 g0 n0 Hx0 Hp0) as [Hkey0 _].
  destruct (fresh d kind r _ (now s) k g0 (b_key x0) Ha Hr Hg Hm Hlt Hd Hk Hkey0) as (b & B1 & B2 & B3 & B4 & _).
  exists s, s', k, b. split; [exact E|]. split; [exact E'|]. split; [exact Hnow|]. split; [exact B1|]. split; [exact B2|]. split; [exact B3|]. split; [exact B4|].
  intros q x g n Hqx Hqg. split; [|exact (Hq q x Hqx)]. destruct (Hkey q x g n Hqx Hqg) as [Hkq _].
  destruct (fresh d kind r _ (now s) k g (b_key x) Ha Hr Hg Hm Hlt Hd Hk Hkq) as (b' & _ & _ & B3' & _ & Hdate).
  replace b with b' by (clear - B3 B3'; lia). exact Hdate.
Qed.
Print Assumptions C143_fresh_partial.

(** Off the grid the calendar is ignored for ever. *)
Theorem C143_misaligned : forall cmp d kind u v persons start kw s0,
  total_order cmp -> flags kind = ind_flags d -> ind_tables d kind persons -> (forall t q, unit_draws (u t q)) -> (forall q, unit_draws (v q)) ->
  (0 <= id_refresh d < a_day)%Z -> (a_day <= start)%Z -> ind_make cmp d persons start kw v u = Ok s0 ->
  ~ (ten | start - id_refresh d)%Z ->
  forall m, exists s k, iterate m (ind_step cmp d u) s0 = Ok s /\ now s = (start + Z.of_nat m * ten)%Z /\
    ((Z.of_nat k - 1) * ten = now s - (start - ticks s0 * ten))%Z /\
    forall q x g n, at_ (user s) q x -> at_ persons q (g, n) -> b_key x = g.
Proof.
  intros cmp d kind u v persons start kw s0 Hc Hf Ht Hu Hv Hr Hs Hmade Hgrid m.
  destruct (C142_execution cmp d kind u v persons start kw s0 Hc Hf Ht Hu Hv Hr Hs Hmade m)
    as (s & s' & k & E & _ & Hnow & _ & _ & Hk & _ & _ & Hkey & _).
  assert (Hno : ~ (ten | start - ticks s0 * ten - id_refresh d)%Z) by (intros [j Hj]; apply Hgrid; exists (j + ticks s0)%Z; lia).
  exists s, k. split; [exact E|]. split; [exact Hnow|]. split.
  - destruct Hk as [(_ & b & [H _] & _)|[_ H]]; [|exact H]. exfalso. exact (never_refreshed _ _ _ _ Hno H).
  - intros q x g n Hx Hg. destruct (Hkey q x g n Hx Hg) as [[(_ & b & [H _] & _)|[_ H]] _]; [|exact H]. exfalso. exact (never_refreshed _ _ _ _ Hno H).
Qed.
Print Assumptions C143_misaligned.

(** Demonstration: one person, the same two states whatever the day; states are exchanged
    with the matrices of odd number only. *)
Definition swap : list (list Q) := [[0; 1]; [1; 0]].
Definition rest : list (list Q) := [[1; 0]; [0; 1]].
Definition person : subgroup := [("age"%string, VInt 3)].
Definition ind_demo (ends : bool) : ind_data :=
  mkIndData (fun _ => Ok ([rest; swap; rest], ["home"; "away"]%string, [1; 0])) 0 ends false false false.
Definition ind_run (ends : bool) (m : nat) : result (tsim (list (sub string subgroup))) :=
  bind (ind_make String.compare (ind_demo ends) [(person, 1%nat)] (7 * a_day) None start_states half) (iterate m (ind_step String.compare (ind_demo ends) half)).
Definition ind_states (r : result (tsim (list (sub string subgroup)))) : option (list (subgroup * list nat)) :=
  match r with Ok s => Some (map (fun b => (b_key b, c_states (b_chain b))) (user s)) | Err _ => None end.

Lemma ind_demo_ok : forall ends kind, ind_tables (ind_demo ends) kind [(person, 1%nat)].
Proof.
  intros ends kind g n [E|[]]. injection E as <- <-.
  assert (Hfit : exists tpms (labels : list string) pdf, (Ok ([rest; swap; rest], ["home"; "away"]%string, [1; 0]) : result _) = Ok (tpms, labels, pdf) /\ fitting tpms labels pdf).
  { do 3 eexists. split; [reflexivity|]. split; [discriminate|]. split; [discriminate|]. split.
    - intros t m H. apply at_in in H. destruct H as [<-|[<-|[<-|[]]]]; split; try reflexivity; intros i0 r Hrow; apply at_in in Hrow; destruct Hrow as [<-|[<-|[]]]; split; try reflexivity; split;
        try (intros [|[|[|i]]] x Hx; unfold at_ in Hx; simpl in Hx; try discriminate; injection Hx as <-; lra); vm_compute; reflexivity.
    - split; [reflexivity|]. split; [|vm_compute; reflexivity].
      intros [|[|[|i]]] x Hx; unfold at_ in Hx; simpl in Hx; try discriminate; injection Hx as <-; lra. }
  split; [unfold is_dict; cbn; repeat constructor; intros []|]. split; [lia|]. split; [exact Hfit|]. intros t key _. exact Hfit.
Qed.

Definition apart (d d' : ind_data) (persons : list (subgroup * nat)) (start : Z) (m : nat) : bool :=
  match bind (ind_make String.compare d persons start None start_states half) (iterate m (ind_step String.compare d half)),
        bind (ind_make String.compare d' persons start None start_states half) (iterate m (ind_step String.compare d' half)) with
  | Ok s, Ok s' => (now s =? now s')%Z &&
      if list_eq_dec (list_eq_dec Nat.eq_dec) (map (fun b => c_states (b_chain b)) (user s)) (map (fun b => c_states (b_chain b)) (user s')) then false else true
  | _, _ => false
  end.

Lemma apart_ok : forall d d' persons start m, apart d d' persons start m = true -> exists s s',
  bind (ind_make String.compare d persons start None start_states half) (iterate m (ind_step String.compare d half)) = Ok s /\
  bind (ind_make String.compare d' persons start None start_states half) (iterate m (ind_step String.compare d' half)) = Ok s' /\
  now s = now s' /\ map (fun b => c_states (b_chain b)) (user s) <> map (fun b => c_states (b_chain b)) (user s').
Proof.
  intros d d' persons start m H. unfold apart in H.
  destruct (bind (ind_make String.compare d persons start None start_states half) (iterate m (ind_step String.compare d half))) as [s|] eqn:E1; [|discriminate].
  destruct (bind (ind_make String.compare d' persons start None start_states half) (iterate m (ind_step String.compare d' half))) as [s'|] eqn:E2; [|discriminate].
  exists s, s'. apply andb_prop in H as [H1 H2]. apply Z.eqb_eq in H1. split; [reflexivity|]. split; [reflexivity|]. split; [exact H1|].
  destruct (list_eq_dec _ _ _); [discriminate|assumption].
Qed.

(** Following the calendar with tables that do not depend on it changes the simulation: the
    same dataset, draws and start give other activities. *)
Theorem C143_neutral_refuted : exists load (persons : list (subgroup * nat)) start v u m s s',
  let d ends := mkIndData load 0 ends false false false in
  (forall g g', load g = load g') /\ (forall ends kind, ind_tables (d ends) kind persons) /\
  (forall t q, unit_draws (u t q)) /\ (forall q, unit_draws (v q)) /\ (start mod a_day = 0)%Z /\
  bind (ind_make String.compare (d false) persons start None v u) (iterate m (ind_step String.compare (d false) u)) = Ok s /\
  bind (ind_make String.compare (d true) persons start None v u) (iterate m (ind_step String.compare (d true) u)) = Ok s' /\
  now s = now s' /\ map (fun b => c_states (b_chain b)) (user s) <> map (fun b => c_states (b_chain b)) (user s').
Proof.
  destruct (apart_ok (ind_demo false) (ind_demo true) [(person, 1%nat)] (7 * a_day) 2) as (s & s' & H); [vm_compute; reflexivity|].
  exists (fun _ => Ok ([rest; swap; rest], ["home"; "away"]%string, [1; 0])), [(person, 1%nat)], (7 * a_day)%Z, start_states, half, 2%nat, s, s'.
  cbv zeta. split; [reflexivity|]. split; [exact ind_demo_ok|]. split; [exact half_unit|]. split; [exact start_unit|]. split; [reflexivity|].
  exact H.
Qed.
Print Assumptions C143_neutral_refuted.

(** The first two steps of a calendar-aware simulator use the same matrix; from the second
    on the subgroup carries the day. *)
Example C143_example :
  ind_states (ind_run true 0) = Some [(person, [0%nat])] /\
  ind_states (ind_run true 1) = Some [([("age", VInt 3); ("weekday", VInts [1; 2; 3; 4; 5]%Z)]%string, [1%nat])] /\
  ind_states (ind_run true 2) = Some [([("age", VInt 3); ("weekday", VInts [1; 2; 3; 4; 5]%Z)]%string, [0%nat])] /\
  ind_states (ind_run false 2) = Some [(person, [1%nat])] /\
  total_order String.compare.
Proof. repeat (split; [vm_compute; reflexivity|]). exact string_order. Qed.

Example C142_example :
  let clash := mkIndData (fun _ => Ok ([rest; swap; rest], ["home"; "away"]%string, [1; 0])) 0 true true false false in
  (exists s, ind_make String.compare clash [(person, 1%nat)] (7 * a_day) None start_states half = Ok s /\
     ind_step String.compare clash half s = Err ValueError) /\
  ind_make String.compare clash [(person, 1%nat)] (7 * a_day + ten) None start_states half = Err ValueError /\
  ind_make String.compare (ind_demo true) [(person, 1%nat)] (7 * a_day) (Some 60000000%Z) start_states half = Err ValueError.
Proof. cbv zeta. split; [eexists; split; [vm_compute; reflexivity|vm_compute; reflexivity]|]. split; vm_compute; reflexivity. Qed.
