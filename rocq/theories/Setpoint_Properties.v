(** * Properties of the thermostat set-points (C50, C80-C82). *)

From Coq Require Import String List ZArith QArith Bool Lia Lqa.
From Verif Require Import Prelude PreludeFacts SpecBase SpecBaseFacts Sampling_Model Sampling_Proofs Time_Model Setpoint_Model Setpoint_Spec Setpoint_Proofs.
Import ListNotations.

Open Scope Q_scope.

(** ** C50: ranges *)
Theorem C50_fluctuating : forall l time inc i dl occ act h s m d, s_init i dl occ act = Ok h -> has_label h s -> fluctuating s -> documented s m d ->
  Forall (draw_ok d) l -> let t := s_T (house_run time inc l h) in t == 16 \/ (m <= t /\ t <= m + d).
Proof.
  intros l time inc i dl occ act h s m d Hi Hl Hf Hd Hdr t. subst t. apply (fluct_run l time inc h s m d); auto.
  destruct (label_pattern h s Hl) as (p & Hp & _ & _ & _ & _ & Dm). destruct (Dm m d Hd) as [<- <-].
  unfold s_init in Hi. destruct (nth_error patterns i) as [q|] eqn:E; [|discriminate]. injection Hi as <-. cbn [s_pat s_T] in *.
  assert (q = p) as -> by (unfold at_ in Hp; congruence). right.
  destruct (pattern_cases _ p Hp) as [[_ ->]|[[_ ->]|[[_ ->]|[[_ ->]|[[_ ->]|[_ ->]]]]]]; cbn; lra.
Qed.

(** On-off households after every step. *)
Theorem C50_on_off : forall time o a c r h, has_label h "On-off Switchers" ->
  s_T (update_house time o a c r h) == (if Nat.eqb o 0 then 16 else 20).
Proof.
  intros time o a c r h Hl. destruct (label_pattern h _ Hl) as (p & Hp & _ & _ & _ & E & Dm). destruct (Dm _ _ doc_onoff) as [Em _].
  rewrite (update_T _ _ _ _ _ _ p Hp), (E eq_refl). unfold on_off. rewrite Em. destruct o; reflexivity.
Qed.

(** Scheduled households. *)
Theorem C50_scheduled : forall l time inc i dl occ act h s m d, s_init i dl occ act = Ok h -> has_label h s -> scheduled s -> documented s m d ->
  let t := s_T (house_run time inc l h) in t == m - d \/ t == m \/ t == m + d.
Proof.
  intros l time inc i dl occ act h s m d Hi Hl Hf Hd. apply (const_run l time inc h s m d); auto.
  destruct (label_pattern h s Hl) as (p & Hp & _ & _ & _ & _ & Dm). destruct (Dm m d Hd) as [<- <-].
  unfold s_init in Hi. destruct (nth_error patterns i) as [q|] eqn:E; [|discriminate]. injection Hi as <-. cbn [s_pat s_T] in *.
  assert (q = p) as -> by (unfold at_ in Hp; congruence). right. left. reflexivity.
Qed.

(** Stepping the simulator steps every household by its own entries; arrays of
    another length are refused. *)
Theorem C50_households : forall occ act draws inc x, length draws = length (ss_houses x) ->
  (length occ = length (ss_houses x) /\ length act = length (ss_houses x) -> exists x', sp_step occ act draws inc x = Ok x' /\
     ss_time x' = (ss_time x + inc)%Z /\ length (ss_houses x') = length (ss_houses x) /\
     forall k h, at_ (ss_houses x) k h -> exists o a b r, at_ occ k o /\ at_ act k a /\ at_ draws k (b, r) /\
       at_ (ss_houses x') k (update_house (ss_time x + inc) o a b r h)) /\
  (length occ <> length (ss_houses x) \/ length act <> length (ss_houses x) -> sp_step occ act draws inc x = Err IndexError).
Proof.
  intros occ act draws inc x Hd. split; intro H.
  - destruct (sp_step occ act draws inc x) as [x'|e] eqn:E.
    + exists x'. split; [reflexivity|]. apply (sp_step_ok _ _ _ _ _ _ Hd E).
    + exfalso. unfold sp_step in E. destruct H as [H1 H2]. rewrite H1, H2, Nat.eqb_refl in E. discriminate.
  - unfold sp_step. destruct (Nat.eqb_spec (length occ) (length (ss_houses x))); [|reflexivity].
    destruct (Nat.eqb_spec (length act) (length (ss_houses x))); [|reflexivity]. exfalso. destruct H; congruence.
Qed.

Definition day0 := fixed_patterns 1 0 1 5 3 2 0.

Example C50_example :
  documented "Cool Conservers" 17 (3 # 2) /\ has_label (SHouse 0 day0 17 2 2) "Cool Conservers" /\
  map (fun l => Qred (s_T (house_run 0 ten_minutes l (SHouse 0 day0 17 2 2))))
    [[Event 2 0 true 3]; [Event 2 2 true 3]; [Event 2 2 true 0; Event 0 0 true 1]; [Event 0 0 false 1; Event 1 0 false 1]] = [17; (37 # 2); 16; (37 # 2)].
Proof. split; [constructor|]. split; [eexists; split; reflexivity|]. vm_compute. reflexivity. Qed.

(** ** C80: set-points follow the people *)

(** Events of a step, without and with a change for comfort. *)
Theorem C80_events : forall time o a c r h s m d, has_label h s -> fluctuating s -> documented s m d ->
  (a = 0%nat \/ c = false ->
    (o = 0%nat -> (0 < s_occ h)%nat -> s_T (update_house time o a c r h) == 16) /\
    ((0 < o)%nat -> s_occ h = 0%nat -> s_T (update_house time o a c r h) == m + d) /\
    ((0 < o <-> 0 < s_occ h)%nat -> a = 0%nat -> (0 < s_act h)%nat -> s_T (update_house time o a c r h) == m) /\
    ((0 < o <-> 0 < s_occ h)%nat -> (0 < a)%nat -> s_act h = 0%nat -> s_T (update_house time o a c r h) == m + d) /\
    ((0 < o <-> 0 < s_occ h)%nat -> (0 < a <-> 0 < s_act h)%nat -> s_T (update_house time o a c r h) = s_T h)) /\
  ((0 < a)%nat -> c = true -> s_T (update_house time o a c r h) == m + inject_Z (Z.of_nat r) / 2).
Proof. exact fluct_step. Qed.

(** A household that everybody left is at the low temperature until somebody
    comes back. *)
Theorem C80_empty_partial : forall l time inc o a c r h s m d, has_label h s -> fluctuating s -> documented s m d ->
  (0 < s_occ h)%nat -> o = 0%nat -> a = 0%nat -> Forall (fun e => e_occ e = 0%nat /\ consistent e) l ->
  s_T (house_run time inc l (update_house time o a c r h)) == 16.
Proof.
  intros l time inc o a c r h s m d Hl Hf Hd Ho -> -> Hall. destruct (update_fields time 0 0 c r h) as (_ & _ & F3 & F4).
  apply (empty_low l time inc _ s m d); auto; [apply has_label_update; exact Hl|].
  destruct (fluct_step time 0 0 c r h s m d Hl Hf Hd) as [A _]. destruct (A (or_introl eq_refl)) as (A1 & _). apply A1; auto.
Qed.

(** One that is empty from the start is heated to its mean temperature as long
    as it stays empty. *)
Theorem C80_empty_start_refuted : exists h, s_init 3 day0 0 0 = Ok h /\ s_T h == 23 /\
  forall l time inc, Forall (fun e => e_occ e = 0%nat /\ consistent e) l -> s_T (house_run time inc l h) == 23.
Proof.
  eexists. split; [reflexivity|]. split; [reflexivity|].
  assert (K : forall l h time inc, has_label h "On-Demand Sizzlers" -> s_T h == 23 -> s_occ h = 0%nat -> s_act h = 0%nat ->
    Forall (fun e => e_occ e = 0%nat /\ consistent e) l -> s_T (house_run time inc l h) == 23).
  { induction l as [|e l IH]; intros h time inc Hl Ht Ho Ha Hall; simpl; [exact Ht|]. inversion Hall as [|? ? [E1 E2] R]; subst. specialize (E2 E1).
    destruct (fluct_step (time + inc) (e_occ e) (e_act e) (e_comfort e) (e_raise e) h _ 23 2 Hl ltac:(right; right; reflexivity) ltac:(constructor)) as [K _].
    destruct (K (or_introl E2)) as (_ & _ & _ & _ & K5). destruct (update_fields (time + inc) (e_occ e) (e_act e) (e_comfort e) (e_raise e) h) as (_ & _ & F3 & F4).
    apply IH; [apply has_label_update; exact Hl| |congruence|congruence|exact R]. rewrite K5; [exact Ht|rewrite E1, Ho; lia|rewrite E2, Ha; lia]. }
  intros l time inc Hall. apply K; auto; [eexists; split; reflexivity|reflexivity].
Qed.

Example C80_example :
  map (fun l => Qred (s_T (house_run 0 ten_minutes l (SHouse 2 day0 20 3 0))))
    [[Event 3 1 false 0]; [Event 3 1 false 0; Event 3 0 true 2]; [Event 0 0 false 0; Event 0 0 true 3]; [Event 3 2 true 3]] = [22; 20; 16; (43 # 2)].
Proof. vm_compute. reflexivity. Qed.

(** ** C81: daily schedules *)

(** The sampled times are times of the day on the ten minute grid, whatever the
    draws. *)
Theorem C81_times : forall u, length u = 7%nat -> exists d, sample_daily u = Ok d /\ daily_ok d.
Proof.
  intros u Hu. do 7 (destruct u as [|? u]; [discriminate|]). destruct u; [|discriminate]. unfold sample_daily.
  assert (K : forall cdf r, cdf <> [] -> exists i, mc_one cdf r = Ok i /\ (i < length cdf)%nat).
  { intros cdf r H. destruct (mc_one_total cdf r H) as [i Hi]. exists i. split; [exact Hi|]. apply mc_one_spec in Hi. tauto. }
  repeat match goal with |- context [mc_one ?c ?r] => destruct (K c r ltac:(discriminate)) as (? & -> & ?); cbn [bind] end.
  eexists. split; [reflexivity|]. apply fixed_ok; assumption.
Qed.

(** The set-point is that of the latest event of the schedule, whatever the
    people do. *)
Theorem C81_latest : forall l time h s m d k v, has_label h s -> scheduled s -> documented s m d -> daily_ok (s_daily h) ->
  (0 < k <= length l)%nat -> asks (s_daily h) (clock_after time k) v -> (forall j, (k < j <= length l)%nat -> quiet (s_daily h) (clock_after time j)) ->
  s_T (house_run time ten_minutes l h) == m + v * d.
Proof.
  intros l time h s m d k v Hl Hs Hd Ho Hk Ha Hq. destruct (label_pattern h s Hl) as (p & Hp & _ & _ & F & _ & Dm). destruct (Dm m d Hd) as [<- <-].
  rewrite (run_sched l time h p Hp (F Hs) Ho). apply (sched_latest p _ _ _ _ k); assumption.
Qed.

(** From the second day on it repeats every day, if the simulation starts on
    the grid. *)
Theorem C81_periodic_partial : forall l l' time h s, has_label h s -> scheduled s -> daily_ok (s_daily h) -> on_grid time ->
  (144 <= length l)%nat -> (length l' = 144 + length l)%nat ->
  s_T (house_run time ten_minutes l' h) = s_T (house_run time ten_minutes l h).
Proof.
  intros l l' time h s Hl Hs Ho Hg Hn Hn'. destruct (label_pattern h s Hl) as (p & Hp & _ & _ & F & _ & _).
  rewrite (run_sched l time h p Hp (F Hs) Ho), (run_sched l' time h p Hp (F Hs) Ho), Hn'.
  replace (length l) with (144 + (length l - 144))%nat by lia. apply sched_day; assumption.
Qed.

(** Started at five past, no event is ever met: the set-point never changes. *)
Theorem C81_off_grid_refuted : (forall l h s time, has_label h s -> scheduled s -> daily_ok (s_daily h) -> ~ on_grid time ->
  s_T (house_run time ten_minutes l h) = s_T h) /\
  exists time h, ~ on_grid time /\ has_label h "Toasty Cruisers" /\ daily_ok (s_daily h).
Proof.
  split.
  - intros l h s time Hl Hs Ho Hg. destruct (label_pattern h s Hl) as (p & Hp & _ & _ & F & _ & _).
    rewrite (run_sched l time h p Hp (F Hs) Ho). apply sched_off; assumption.
  - exists 300000000%Z, (SHouse 5 day0 21 1 1). split; [vm_compute; discriminate|]. split; [eexists; split; reflexivity|]. repeat split; vm_compute; congruence.
Qed.

(** The return may be sampled after the bed time: bed at 20:00, return at 20:40,
    and the house is kept at the high temperature for the night. *)
Theorem C81_night_refuted : exists d h, sample_daily [(99 # 100); (99 # 100); 0; (99 # 100); (99 # 100); 0; 0] = Ok d /\ s_init 5 d 2 2 = Ok h /\
  clock (bed_h d) (bed_m d) = clock 20 0 /\ clock (wake_h d) (wake_m d) = clock 9 50 /\
  forall l, (length l = 140)%nat -> s_T (house_run 0 ten_minutes l h) == 21 + 1 /\ clock_after 0 140 = clock 23 20.
Proof.
  eexists. eexists. split; [vm_compute; reflexivity|]. split; [reflexivity|]. split; [reflexivity|]. split; [reflexivity|].
  intros l Hn. split; [|vm_compute; reflexivity].
  match goal with |- s_T (house_run _ _ _ ?h) == _ => assert (Hp : at_ patterns (s_pat h) (Pattern "Toasty Cruisers" true 21 1 (1 # 20))) by reflexivity;
    assert (Ho : daily_ok (s_daily h)) by (repeat split; vm_compute; congruence) end.
  rewrite (run_sched l _ _ _ Hp (or_intror eq_refl) Ho), Hn. vm_compute. reflexivity.
Qed.

Example C81_example : day0 = Daily 7 0 true 8 20 12 50 22 0 /\ daily_ok day0 /\ on_grid 0 /\ ~ on_grid 300000000 /\
  map (fun n => Qred (sched (Pattern "Toasty Cruisers" true 21 1 (1 # 20)) day0 0 n 21)) [41; 42; 49; 50; 77; 131; 132; 150]%nat = [21; 22; 22; 20; 22; 22; 21; 21].
Proof.
  split; [reflexivity|]. split; [repeat split; vm_compute; congruence|]. split; [reflexivity|]. split; [vm_compute; discriminate|]. vm_compute. reflexivity.
Qed.

(** ** C82: options of the constructor *)

(** Without extra arguments every household gets one of the six patterns. *)
Theorem C82_default : forall n ints draws, length draws = n -> exists l, construct NoExtra n ints draws = Ok l /\ length l = n /\
  forall i, In i l -> exists p, at_ patterns i p.
Proof.
  intros n ints draws Hn. unfold construct. cbn [base_accepts method_of bind]. change (attribute_patterns (MString "living lab") n ints draws) with (mapM (mc_one (cumsum living_lab)) draws).
  destruct (mapM_total _ _ (mc_one (cumsum living_lab)) draws) as [l Hl]. { intros r _. apply mc_one_total. discriminate. }
  exists l. split; [exact Hl|]. apply mapM_ok in Hl. destruct Hl as [Hlen Hl]. split; [congruence|].
  - intros i Hi. apply in_at in Hi. destruct Hi as [k Hk]. pose proof (at_lt _ _ _ _ Hk) as Lk. rewrite Hlen in Lk. apply lt_at in Lk. destruct Lk as [r Hr].
    destruct (Hl k r Hr) as (y & Hy & E). assert (y = i) as -> by (unfold at_ in Hk; congruence). apply mc_one_spec in E. destruct E as [E _]. change (length (cumsum living_lab)) with (length patterns) in E.
    apply lt_at in E. exact E.
Qed.

(** The documented option for the method is an error in any form, and so is a
    logger. *)
Theorem C82_options_refuted : forall n ints draws s,
  construct (KwMethod s) n ints draws = Err TypeError /\ construct (PosString s) n ints draws = Err TypeError /\
  construct KwLogger n ints draws = Err TypeError /\ construct PosLogger n ints draws = Err ValueError.
Proof. intros. repeat split. Qed.

(** attribute_patterns itself knows the methods. *)
Theorem C82_methods_partial : forall n ints draws s p i, at_ patterns i p ->
  attribute_patterns (MString (pa_label p)) n ints draws = Ok (repeat i n) /\
  attribute_patterns (MString "random") n ints draws = Ok ints /\
  (s <> "random"%string -> s <> "living lab"%string -> (forall q, In q patterns -> pa_label q <> s) -> attribute_patterns (MString s) n ints draws = Err ValueError).
Proof.
  intros n ints draws s p i Hp. split; [|split; [reflexivity|]].
  - destruct (pattern_cases _ p Hp) as [[-> ->]|[[-> ->]|[[-> ->]|[[-> ->]|[[-> ->]|[-> ->]]]]]]; reflexivity.
  - intros H1 H2 H3. unfold attribute_patterns. apply String.eqb_neq in H1, H2. rewrite H1, H2.
    assert (K : forall l, (forall q, In q l -> pa_label q <> s) -> label_index l s = None).
    { induction l as [|q l IH]; intro H; simpl; [reflexivity|]. destruct (String.eqb_spec (pa_label q) s) as [E|]; [exfalso; apply (H q); simpl; auto|].
      rewrite IH; [reflexivity|]. intros; apply H; simpl; auto. }
    rewrite (K patterns H3). reflexivity.
Qed.

Example C82_example : construct NoExtra 3 [] [0; (1 # 2); (99 # 100)] = Ok [0; 3; 5]%nat /\
  attribute_patterns (MString "Toasty Cruisers") 2 [] [] = Ok [5; 5]%nat.
Proof. conj_vm. Qed.

Print Assumptions C50_fluctuating.
Print Assumptions C50_on_off.
Print Assumptions C50_scheduled.
Print Assumptions C50_households.
Print Assumptions C80_events.
Print Assumptions C80_empty_partial.
Print Assumptions C80_empty_start_refuted.
Print Assumptions C81_times.
Print Assumptions C81_latest.
Print Assumptions C81_periodic_partial.
Print Assumptions C81_off_grid_refuted.
Print Assumptions C81_night_refuted.
Print Assumptions C82_default.
Print Assumptions C82_options_refuted.
Print Assumptions C82_methods_partial.
