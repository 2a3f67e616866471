(** * Properties of the example simulators (C193). *)

From Coq Require Import List ZArith QArith Bool Lia Lqa Arith.
From Verif Require Import Prelude PreludeFacts SpecBase SpecBaseFacts Time_Model Time_Spec Time_Proofs Toy_Model Toy_Spec Toy_Proofs.
Import ListNotations.
Local Open Scope Q_scope.

(** ** C193 *)

(** ExampleSimulator: after any run with amounts that fit, the number of occupants of a
    household is the initial one plus the arrivals minus the departures, and one time
    step was counted for each step. *)
Theorem C193_counts : forall s ins,
  Forall (fun i => accepted (occ_type (e_user s)) (length (occ (e_user s))) (fst i) /\ accepted (occ_type (e_user s)) (length (occ (e_user s))) (snd i)) ins ->
  exists s', example_run s ins = (s', None) /\ e_ticks s' = (e_ticks s + Z.of_nat (length ins))%Z /\ occ_type (e_user s') = occ_type (e_user s) /\
    length (occ (e_user s')) = length (occ (e_user s)) /\
    forall h x, at_ (occ (e_user s)) h x -> exists y, at_ (occ (e_user s')) h y /\ y == x + arrived ins h - departed ins h.
Proof. intros s ins F. apply example_counts. exact F. Qed.

(** The same for the time aware one, whose clock moves by one step size each time. *)
Theorem C193_counts_timed : forall s ins,
  Forall (fun i => accepted (occ_type (user s)) (length (occ (user s))) (fst i) /\ accepted (occ_type (user s)) (length (occ (user s))) (snd i)) ins ->
  exists s', aware_run s ins = Ok s' /\ now s' = (now s + Z.of_nat (length ins) * step_size s)%Z /\ step_size s' = step_size s /\ ticks s' = (ticks s + Z.of_nat (length ins))%Z /\
    occ_type (user s') = occ_type (user s) /\ length (occ (user s')) = length (occ (user s)) /\
    (forall h x, at_ (occ (user s)) h x -> exists y, at_ (occ (user s')) h y /\ y == x + arrived ins h - departed ins h).
Proof. intros s ins F. apply aware_counts. exact F. Qed.

(** Amounts that do not fit: floats for a simulator that counts integers are a
    TypeError, other lengths a ValueError. *)
Theorem C193_misfit : forall s i, ~ accepted (occ_type (e_user s)) (length (occ (e_user s))) (fst i) ->
  example_step s i = (s, Some (match occ_type (e_user s), dtype_of (fst i) with DInt, DFloat => TypeError | _, _ => ValueError end)).
Proof. intros s [a b] N. unfold example_step, move. cbn [fst snd] in *. rewrite (in_place_bad Qplus _ _ N). destruct s; reflexivity. Qed.

(** A step with departures that do not fit raises too, but the arrivals have been added
    already, although no time step was counted. *)
Theorem C193_half_step : forall s i, accepted (occ_type (e_user s)) (length (occ (e_user s))) (fst i) -> ~ accepted (occ_type (e_user s)) (length (occ (e_user s))) (snd i) ->
  exists s', example_step s i = (s', Some (match occ_type (e_user s), dtype_of (snd i) with DInt, DFloat => TypeError | _, _ => ValueError end)) /\
    e_ticks s' = e_ticks s /\ forall h x, at_ (occ (e_user s)) h x -> at_ (occ (e_user s')) h (x + share (fst i) h).
Proof.
  intros s [a b] A N. unfold example_step, move. cbn [fst snd] in *. destruct (in_place_ok Qplus _ _ A) as (l & E & L & H). rewrite E.
  rewrite in_place_bad by (cbn; rewrite L; exact N). eexists. split; [reflexivity|]. split; [reflexivity|]. exact H.
Qed.

(** Construction of ExampleSimulator: households start with the drawn integers, below
    [max_residents]: no household starts full. *)
Theorem C193_random : forall n m draws,
  ((n <= 0 \/ m <= 0)%Z -> example_init n m draws = Err ValueError) /\
  ((0 < n)%Z -> (0 < m)%Z -> (forall h, (0 <= draws h < m)%Z) -> exists s, example_init n m draws = Ok s /\ e_ticks s = 0%Z /\ occ_type (e_user s) = DInt /\ length (occ (e_user s)) = Z.to_nat n /\
    forall h x, at_ (occ (e_user s)) h x -> x = inject_Z (draws h) /\ 0 <= x /\ x < inject_Z m).
Proof.
  intros n m draws. unfold example_init, randint. split.
  - intros H. destruct (Z.leb_spec n 0); [reflexivity|]. destruct (Z.leb_spec m 0); [reflexivity|lia].
  - intros N M R. destruct (Z.leb_spec n 0); [lia|]. destruct (Z.leb_spec m 0); [lia|]. cbn [bind]. eexists. split; [reflexivity|]. cbn. split; auto. split; auto.
    split; [rewrite map_length; apply seq_length|]. intros h x X. apply at_map' in X as (k & K & ->).
    assert (k = h). { pose proof (at_lt _ _ _ _ K) as L. rewrite seq_length in L. unfold at_ in K. apply nth_error_nth with (d := O) in K. rewrite seq_nth in K by exact L. lia. } subst k.
    split; auto. rewrite <- Zlt_Qlt. change 0 with (inject_Z 0). rewrite <- Zle_Qle. specialize (R h). lia.
Qed.

(** Construction of the time aware one with all residents inside at 4 am: the clock is at
    the start, nothing was printed, all residents are inside, and the time step counts
    the whole steps since the latest 4 am. *)
Theorem C193_all_inside : forall n m start d draws, (0 < n)%Z -> (0 < d)%Z ->
  exists s, aware_init n m start d draws AllInsideAt4am = Ok s /\ now s = start /\ step_size s = d /\ printed (user s) = [] /\ occ_type (user s) = DFloat /\
    length (occ (user s)) = Z.to_nat n /\ (forall h x, at_ (occ (user s)) h x -> x == inject_Z m) /\
    exists four_am, latest_occurrence (4 * us_per_hour) start four_am /\ whole_steps d four_am start (ticks s).
Proof. exact aware_all_inside. Qed.

(** The other algorithms: random numbers without initial steps; unknown ones are
    refused. *)
Theorem C193_algorithms : forall n m start d draws, (0 < n)%Z ->
  ((0 < m)%Z -> (0 < d)%Z -> aware_init n m start d draws Random = Ok (mkT start d 0 (Toy DInt (map (fun h => inject_Z (draws h)) (seq 0 (Z.to_nat n))) []))) /\
  ((m <= 0)%Z -> aware_init n m start d draws Random = Err ValueError) /\
  aware_init n m start d draws OtherAlgo = Err NotImplementedError /\
  (forall a, (0 < m)%Z -> d = 0%Z -> a <> OtherAlgo -> aware_init n m start d draws a = Err ZeroDivisionError).
Proof.
  intros n m start d draws N. unfold aware_init, randint. destruct (Z.leb_spec n 0); [lia|]. repeat split.
  - intros M D. destruct (Z.leb_spec m 0); [lia|]. cbn [bind]. unfold t_initialize, init_datetime. cbn [now step_size user]. destruct (Z.gtb_spec start start); [lia|]. cbn [bind].
    rewrite Z.sub_diag. destruct (Z.eqb_spec d 0); [lia|]. rewrite Z.quot_0_l, Z.mod_0_l by lia. cbn. rewrite Z.add_0_r. reflexivity.
  - intro M. destruct (Z.leb_spec m 0); [reflexivity|lia].
  - intros a M -> A. destruct (Z.leb_spec m 0); [lia|]. destruct a; [|reflexivity|congruence].
    cbn [bind]. unfold t_initialize, init_datetime. cbn [now step_size user]. destruct (Z.gtb_spec start start); [lia|]. reflexivity.
Qed.

(** A step prints the percentage of households that are empty before it, exactly when
    it crosses 4 am (steps of at most an hour). *)
Theorem C193_report : forall s i, (0 < step_size s <= us_per_hour)%Z ->
  accepted (occ_type (user s)) (length (occ (user s))) (fst i) -> accepted (occ_type (user s)) (length (occ (user s))) (snd i) ->
  exists s', aware_step i s = Ok s' /\
    (crosses (4 * us_per_hour) (now s) (now s + step_size s) ->
       exists p, printed (user s') = printed (user s) ++ [p] /\ p == 100 * inject_Z (Z.of_nat (empties (occ (user s)))) / inject_Z (Z.of_nat (length (occ (user s))))) /\
    (~ crosses (4 * us_per_hour) (now s) (now s + step_size s) -> printed (user s') = printed (user s)).
Proof.
  intros s i D A B. destruct (aware_step_ok s i A B) as (l & E & L & H). eexists. split; [exact E|]. cbn [user printed].
  pose proof (fires_crosses (now s) (step_size s) D) as F. split.
  - intro C. apply F in C. rewrite C. exists (percentage (occ (user s))). split; auto. unfold percentage.
    assert (X : forall l, length (filter (fun x => Qeq_bool x 0) l) = empties l).
    { clear. induction l as [|x l IH]; [reflexivity|]. cbn [filter empties]. destruct (Qeq_bool x 0) eqn:Q; destruct (Qeq_dec x 0) as [P|P]; cbn [length]; rewrite ?IH; auto.
      - apply Qeq_bool_iff in Q. contradiction.
      - apply Qeq_bool_iff in P. congruence. }
    rewrite X. unfold Qdiv. ring.
  - intro C. destruct (fires (now s) (step_size s)) eqn:Q; [exfalso; apply C, F; reflexivity|]. apply app_nil_r.
Qed.

(** Over a run there is one report for every 4 am. *)
Theorem C193_reports : forall ins s s', (0 < step_size s <= us_per_hour)%Z ->
  Forall (fun i => accepted (occ_type (user s)) (length (occ (user s))) (fst i) /\ accepted (occ_type (user s)) (length (occ (user s))) (snd i)) ins ->
  aware_run s ins = Ok s' ->
  exists new, printed (user s') = printed (user s) ++ new /\ Z.of_nat (length new) = crossings (4 * us_per_hour) (now s) (now s').
Proof. exact aware_reports. Qed.

(** The documented maximum is not enforced, and neither is zero: a household may hold
    more than [max_residents] occupants, or less than none. *)
Theorem C193_maximum_refuted : exists n m draws s i j s1 s2 x y, (forall h, (0 <= draws h < m)%Z) /\ example_init n m draws = Ok s /\
  example_step s i = (s1, None) /\ example_step s j = (s2, None) /\
  at_ (occ (e_user s1)) 0 x /\ inject_Z m < x /\ at_ (occ (e_user s2)) 0 y /\ y < 0.
Proof.
  exists 1%Z, 2%Z, (fun _ => 1%Z). eexists. exists (Scalar DInt 5, Scalar DInt 0), (Scalar DInt 0, Scalar DInt 3). do 2 eexists. exists (1 + 5 - 0), (1 + 0 - 3).
  split; [intro; lia|]. split; [reflexivity|]. split; [reflexivity|]. split; [reflexivity|]. split; [reflexivity|]. split; [reflexivity|]. split; reflexivity.
Qed.

(** Two households of three residents, started at 3:30, see one household emptied before
    4 am. *)
Definition half_past_three : Z := (735234 * us_per_day + 3 * us_per_hour + us_per_hour / 2)%Z.
Definition quarter : Z := (us_per_hour / 4)%Z.
Definition leave (a b : Q) : amount * amount := (Scalar DInt 0, Array DFloat [a; b]).
Example C193_example :
  match bind (aware_init 2 3 half_past_three quarter (fun _ => 0%Z) AllInsideAt4am) (fun s => aware_run s [leave 1 3; leave 1 0; leave 1 0]) with
  | Ok s => (ticks s, map Qred (occ (user s)), map Qred (printed (user s)))
  | Err _ => (0%Z, [], [])
  end = (97%Z, [0; 0], [50]) /\
  example_step (ESim 7 (Toy DInt [2; 1] [])) (Array DInt [1; 1], Array DInt [1; 1; 1]) = (ESim 7 (Toy DInt [2 + 1; 1 + 1] []), Some ValueError) /\
  snd (example_step (ESim 7 (Toy DInt [2; 1] [])) (Scalar DFloat 1, Scalar DInt 0)) = Some TypeError.
Proof. repeat split; vm_compute; reflexivity. Qed.

Print Assumptions C193_counts.
Print Assumptions C193_counts_timed.
Print Assumptions C193_misfit.
Print Assumptions C193_half_step.
Print Assumptions C193_random.
Print Assumptions C193_all_inside.
Print Assumptions C193_algorithms.
Print Assumptions C193_report.
Print Assumptions C193_reports.
Print Assumptions C193_maximum_refuted.
