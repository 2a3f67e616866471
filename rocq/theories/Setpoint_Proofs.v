(** * Proofs about the thermostat set-points. *)

From Coq Require Import String List ZArith QArith Bool Lia Lqa ZifyBool ZifyNat.
From Verif Require Import Prelude PreludeFacts SpecBase SpecBaseFacts Sampling_Model Time_Model Setpoint_Model Setpoint_Spec Parse_GroupProofs.
Import ListNotations.
Ltac Zify.zify_post_hook ::= Z.div_mod_to_equations.

Open Scope Q_scope.

Lemma pattern_cases : forall i p, at_ patterns i p ->
  (i = 0%nat /\ p = Pattern "Cool Conservers" false 17 (3 # 2) (1 # 10)) \/
  (i = 1%nat /\ p = Pattern "Steady and Savvy" true (37 # 2) 1 (1 # 20)) \/
  (i = 2%nat /\ p = Pattern "Hot and Cold Fluctuators" false 20 2 (1 # 10)) \/
  (i = 3%nat /\ p = Pattern "On-Demand Sizzlers" false 23 2 (1 # 10)) \/
  (i = 4%nat /\ p = Pattern "On-off Switchers" false 20 (1 # 2) 0) \/
  (i = 5%nat /\ p = Pattern "Toasty Cruisers" true 21 1 (1 # 20)).
Proof.
  intros i p H. unfold at_, patterns in H.
  do 6 (destruct i as [|i]; [injection H as <-; tauto|simpl in H]). destruct i; discriminate.
Qed.

(** The effect of a step on a household, by pattern. *)
Lemma fold_fields : forall time o a c r l x, s_pat (fold_left (apply_update time o a c r) l x) = s_pat x /\
  s_daily (fold_left (apply_update time o a c r) l x) = s_daily x.
Proof.
  induction l as [|u l IH]; intro x; simpl; [auto|]. destruct (IH (apply_update time o a c r x u)) as [A B]. rewrite A, B. clear.
  unfold apply_update. generalize (label_index patterns (snd u)), (nth_error patterns (s_pat x)). intros [n|] [q|]; auto.
  destruct (Nat.eqb (s_pat x) n); auto.
Qed.

Lemma update_fields : forall time o a c r h, s_pat (update_house time o a c r h) = s_pat h /\ s_daily (update_house time o a c r h) = s_daily h /\
  s_occ (update_house time o a c r h) = o /\ s_act (update_house time o a c r h) = a.
Proof.
  intros time o a c r h. unfold update_house. generalize updates. intro l. destruct (fold_fields time o a c r l h). repeat split; assumption.
Qed.

Lemma update_T : forall time o a c r h p, at_ patterns (s_pat h) p ->
  s_T (update_house time o a c r h) =
  (match s_pat h with
   | 1 | 5 => constant p (s_daily h) time (s_T h)
   | 4 => on_off p o
   | _ => fluctuate p o a c r h
   end)%nat.
Proof.
  intros time o a c r [i d t oc ac] p H. cbn [s_pat] in *. unfold at_ in H.
  destruct (pattern_cases i p H) as [[-> ->]|[[-> ->]|[[-> ->]|[[-> ->]|[[-> ->]|[-> ->]]]]]]; reflexivity.
Qed.

Lemma label_pattern : forall h s, has_label h s -> exists p, at_ patterns (s_pat h) p /\ pa_label p = s /\
  (fluctuating s -> s_pat h = 0 \/ s_pat h = 2 \/ s_pat h = 3)%nat /\ (scheduled s -> s_pat h = 1 \/ s_pat h = 5)%nat /\
  (s = "On-off Switchers"%string -> s_pat h = 4)%nat /\ (forall m d, documented s m d -> pa_mean p = m /\ pa_dev p = d).
Proof.
  intros h s (p & Hp & Hs). exists p. split; [exact Hp|]. split; [exact Hs|]. subst s.
  destruct (pattern_cases _ p Hp) as [[-> ->]|[[-> ->]|[[-> ->]|[[-> ->]|[[-> ->]|[-> ->]]]]]]; cbn [pa_label pa_mean pa_dev];
  (split; [intros [E|[E|E]]; try discriminate E; auto|]); (split; [intros [E|E]; try discriminate E; auto|]);
  (split; [intro E; try discriminate E; auto|]); intros m d E; inversion E; subst; auto.
Qed.

Lemma has_label_update : forall time o a c r h s, has_label h s -> has_label (update_house time o a c r h) s.
Proof. intros time o a c r h s (p & H1 & H2). exists p. destruct (update_fields time o a c r h) as (-> & _). auto. Qed.

(** *** Fluctuating households *)
Definition fluct_range (m d t : Q) : Prop := t == 16 \/ (m <= t /\ t <= m + d).

Lemma fluctuate_range : forall p o a c r h, 0 <= pa_dev p -> inject_Z (Z.of_nat r) < 2 * pa_dev p + 1 ->
  (exists k, 2 * pa_dev p == inject_Z k) -> fluct_range (pa_mean p) (pa_dev p) (s_T h) ->
  fluct_range (pa_mean p) (pa_dev p) (fluctuate p o a c r h).
Proof.
  intros p o a c r h Pd Hr (k & Hk) Ht.
  assert (R : 0 <= inject_Z (Z.of_nat r) / 2 /\ inject_Z (Z.of_nat r) / 2 <= pa_dev p).
  { assert (Z.of_nat r < k + 1)%Z. { rewrite Hk in Hr. rewrite Zlt_Qlt, inject_Z_plus. exact Hr. }
    assert (inject_Z (Z.of_nat r) <= inject_Z k) by (rewrite <- Zle_Qle; lia).
    assert (inject_Z 0 <= inject_Z (Z.of_nat r)) by (rewrite <- Zle_Qle; lia).
    split; [apply Qle_shift_div_l; unfold inject_Z in *; lra|apply Qle_shift_div_r; unfold inject_Z in *; lra]. }
  unfold fluctuate, fluct_range in *. cbv zeta.
  destruct ((0 <? a)%nat && c); [right; lra|].
  match goal with |- context [if ?b then _ else _] => destruct b end; [right; lra|].
  match goal with |- context [if ?b then _ else _] => destruct b end; [right; lra|].
  match goal with |- context [if ?b then _ else _] => destruct b end; [right; lra|].
  match goal with |- context [if ?b then _ else _] => destruct b end; [left; reflexivity|]. exact Ht.
Qed.

Lemma fluct_run : forall l time inc h s m d, has_label h s -> fluctuating s -> documented s m d -> fluct_range m d (s_T h) ->
  Forall (draw_ok d) l -> fluct_range m d (s_T (house_run time inc l h)).
Proof.
  induction l as [|e l IH]; intros time inc h s m d Hl Hf Hd Ht Hdr; simpl; [exact Ht|].
  inversion Hdr as [|? ? D1 D2]; subst. apply (IH _ _ _ s); auto; [apply has_label_update; exact Hl|].
  destruct (label_pattern h s Hl) as (p & Hp & Hps & F & _ & _ & Dm). destruct (Dm m d Hd) as [<- <-]. specialize (F Hf).
  rewrite (update_T _ _ _ _ _ _ p Hp).
  assert (E : (match s_pat h with 1 | 5 => constant p (s_daily h) (time + inc) (s_T h) | 4 => on_off p (e_occ e) | _ => fluctuate p (e_occ e) (e_act e) (e_comfort e) (e_raise e) h end = fluctuate p (e_occ e) (e_act e) (e_comfort e) (e_raise e) h)%nat)
    by (destruct F as [->|[->| ->]]; reflexivity).
  rewrite E. clear E. apply fluctuate_range; auto.
  - destruct (pattern_cases _ p Hp) as [[_ ->]|[[_ ->]|[[_ ->]|[[_ ->]|[[_ ->]|[_ ->]]]]]]; cbn; lra.
  - destruct (pattern_cases _ p Hp) as [[_ ->]|[[_ ->]|[[_ ->]|[[_ ->]|[[_ ->]|[_ ->]]]]]]; cbn;
    [exists 3%Z|exists 2%Z|exists 4%Z|exists 4%Z|exists 1%Z|exists 2%Z]; reflexivity.
Qed.

(** The transitions of one step. *)
Lemma fluct_step : forall time o a c r h s m d, has_label h s -> fluctuating s -> documented s m d ->
  (a = 0%nat \/ c = false ->
    (o = 0%nat -> (0 < s_occ h)%nat -> s_T (update_house time o a c r h) == 16) /\
    ((0 < o)%nat -> s_occ h = 0%nat -> s_T (update_house time o a c r h) == m + d) /\
    ((0 < o <-> 0 < s_occ h)%nat -> a = 0%nat -> (0 < s_act h)%nat -> s_T (update_house time o a c r h) == m) /\
    ((0 < o <-> 0 < s_occ h)%nat -> (0 < a)%nat -> s_act h = 0%nat -> s_T (update_house time o a c r h) == m + d) /\
    ((0 < o <-> 0 < s_occ h)%nat -> (0 < a <-> 0 < s_act h)%nat -> s_T (update_house time o a c r h) = s_T h)) /\
  ((0 < a)%nat -> c = true -> s_T (update_house time o a c r h) == m + inject_Z (Z.of_nat r) / 2).
Proof.
  intros time o a c r h s m d Hl Hf Hd.
  destruct (label_pattern h s Hl) as (p & Hp & Hps & F & _ & _ & Dm). destruct (Dm m d Hd) as [<- <-]. specialize (F Hf).
  rewrite (update_T _ _ _ _ _ _ p Hp).
  assert (E : (match s_pat h with 1 | 5 => constant p (s_daily h) time (s_T h) | 4 => on_off p o | _ => fluctuate p o a c r h end = fluctuate p o a c r h)%nat)
    by (destruct F as [->|[->| ->]]; reflexivity).
  rewrite E. clear. unfold fluctuate. cbv zeta. split.
  - intro K. assert (Kb : ((0 <? a)%nat && c) = false) by (destruct K as [-> | ->]; [reflexivity|apply andb_false_r]). rewrite Kb. clear K Kb.
    repeat split; intros;
    repeat (match goal with |- context [if ?b then _ else _] => let Eb := fresh "Eb" in destruct b eqn:Eb; [|] end);
    try reflexivity; try (exfalso; lia).
  - intros Ha ->. destruct a as [|a]; [lia|]. reflexivity.
Qed.

(** *** Constant patterns *)
Lemma const_range : forall p d time t m v, pa_mean p = m -> pa_dev p = v -> (t == m - v \/ t == m \/ t == m + v) ->
  constant p d time t == m - v \/ constant p d time t == m \/ constant p d time t == m + v.
Proof.
  intros p d time t m v <- <- H. unfold constant. cbv zeta.
  repeat match goal with |- context [if ?b then _ else _] => destruct b end; auto using Qeq_refl.
  all: try (right; right; reflexivity); try (right; left; reflexivity); left; reflexivity.
Qed.

Lemma const_run : forall l time inc h s m d, has_label h s -> scheduled s -> documented s m d ->
  (s_T h == m - d \/ s_T h == m \/ s_T h == m + d) ->
  let t := s_T (house_run time inc l h) in t == m - d \/ t == m \/ t == m + d.
Proof.
  induction l as [|e l IH]; intros time inc h s m d Hl Hf Hd Ht t; subst t; simpl; [exact Ht|].
  apply (IH _ _ _ s); auto; [apply has_label_update; exact Hl|].
  destruct (label_pattern h s Hl) as (p & Hp & Hps & _ & F & _ & Dm). destruct (Dm m d Hd) as [Em Ed]. specialize (F Hf).
  rewrite (update_T _ _ _ _ _ _ p Hp). destruct F as [-> | ->]; apply const_range; assumption.
Qed.

(** An override at a time of the day. *)
Definition override (p : pattern) (d : daily) (k : Z) : option Q :=
  if (clock (wake_h d) (wake_m d) =? k)%Z then Some (pa_mean p + pa_dev p)
  else if (clock (bed_h d) (bed_m d) =? k)%Z then Some (pa_mean p)
  else if (clock (back_h d) (back_m d) =? k)%Z then Some (pa_mean p + pa_dev p)
  else if changes d && (clock (leave_h d) (leave_m d) =? k)%Z then Some (pa_mean p - pa_dev p)
  else None.

Definition apply_over (o : option Q) (t : Q) : Q := match o with Some v => v | None => t end.

Lemma hour_minute : forall t, hour_at t = (minutes_of_day t / 60)%Z /\ minute_at t = (minutes_of_day t mod 60)%Z /\ (0 <= minutes_of_day t < 1440)%Z.
Proof.
  intro t. unfold hour_at, minute_at, minutes_of_day, time_of_day, us_per_hour, us_per_day.
  split; [lia|]. split; [lia|]. lia.
Qed.

Lemma now_clock : forall h m t, time_ok h m -> ((h =? hour_at t)%Z && (m =? minute_at t)%Z) = (clock h m =? minutes_of_day t)%Z.
Proof.
  intros h m t H. destruct (hour_minute t) as (-> & -> & R). unfold clock, time_ok in *. generalize dependent (minutes_of_day t). intros z R. lia.
Qed.

Lemma constant_override : forall p d time t, daily_ok d -> constant p d time t = apply_over (override p d (minutes_of_day time)) t.
Proof.
  intros p d time t (H1 & H2 & H3 & H4). unfold constant. cbv zeta. rewrite !now_clock by assumption. unfold override.
  destruct (clock (wake_h d) (wake_m d) =? minutes_of_day time)%Z; [reflexivity|].
  destruct (clock (bed_h d) (bed_m d) =? minutes_of_day time)%Z; [reflexivity|].
  destruct (clock (back_h d) (back_m d) =? minutes_of_day time)%Z; [reflexivity|].
  destruct (changes d && (clock (leave_h d) (leave_m d) =? minutes_of_day time)%Z); reflexivity.
Qed.

(** Set-point after [n] steps of ten minutes. *)
Fixpoint sched (p : pattern) (d : daily) (time : Z) (n : nat) (t : Q) : Q :=
  match n with
  | O => t
  | S k => sched p d (time + ten_minutes) k (apply_over (override p d (minutes_of_day (time + ten_minutes))) t)
  end.

Lemma run_sched : forall l time h p, at_ patterns (s_pat h) p -> (s_pat h = 1 \/ s_pat h = 5)%nat -> daily_ok (s_daily h) ->
  s_T (house_run time ten_minutes l h) = sched p (s_daily h) time (length l) (s_T h).
Proof.
  induction l as [|e l IH]; intros time h p Hp Hi Hd; simpl; [reflexivity|].
  destruct (update_fields (time + ten_minutes) (e_occ e) (e_act e) (e_comfort e) (e_raise e) h) as (E1 & E2 & _ & _).
  rewrite (IH _ _ p); [|rewrite E1; exact Hp|rewrite E1; exact Hi|rewrite E2; exact Hd]. rewrite E2, (update_T _ _ _ _ _ _ p Hp).
  destruct Hi as [-> | ->]; rewrite constant_override by exact Hd; reflexivity.
Qed.

Lemma minutes_step : forall t, minutes_of_day (t + ten_minutes) = ((minutes_of_day t + 10) mod 1440)%Z.
Proof. intro t. unfold minutes_of_day, ten_minutes. lia. Qed.

(** A day later the same. *)
Lemma sched_period : forall p d n t1 t2 x, minutes_of_day t1 = minutes_of_day t2 -> sched p d t1 n x = sched p d t2 n x.
Proof.
  induction n as [|n IH]; intros t1 t2 x H; simpl; [reflexivity|]. rewrite !minutes_step, H. apply IH. rewrite !minutes_step, H. reflexivity.
Qed.

Lemma sched_app : forall p d m n t x, sched p d t (m + n) x = sched p d (t + Z.of_nat m * ten_minutes) n (sched p d t m x).
Proof.
  induction m as [|m IH]; intros n t x.
  - cbn [Nat.add sched]. f_equal. lia.
  - cbn [Nat.add sched]. rewrite IH. f_equal. lia.
Qed.

(** Once an event lies in the window, the start does not matter. *)
Lemma sched_forget : forall p d n t x y k v, (k < n)%nat -> override p d (minutes_of_day (t + Z.of_nat (S k) * ten_minutes)) = Some v ->
  sched p d t n x = sched p d t n y.
Proof.
  induction n as [|n IH]; intros t x y k v Hk Hv; [lia|]. cbn [sched]. destruct k as [|k].
  - replace (t + Z.of_nat 1 * ten_minutes)%Z with (t + ten_minutes)%Z in Hv by lia. rewrite Hv. reflexivity.
  - apply (IH _ _ _ k v); [lia|]. rewrite <- Hv. f_equal. f_equal. lia.
Qed.

Lemma minutes_steps : forall t n, minutes_of_day (t + n * ten_minutes) = ((minutes_of_day t + 10 * n) mod 1440)%Z.
Proof. intros t n. unfold minutes_of_day, ten_minutes. lia. Qed.

Lemma wake_reached : forall d t, daily_ok d -> on_grid t ->
  exists k, (k < 144)%nat /\ minutes_of_day (t + Z.of_nat (S k) * ten_minutes) = clock (wake_h d) (wake_m d).
Proof.
  intros d t ((H1 & H2 & H3) & _) Hg. unfold on_grid in Hg. pose proof (proj2 (proj2 (hour_minute t))) as R.
  set (w := clock (wake_h d) (wake_m d)). assert (W : (0 <= w < 1440 /\ w mod 10 = 0)%Z) by (unfold w, clock; lia).
  exists (Z.to_nat (((w - minutes_of_day t) / 10 - 1) mod 144)). split; [lia|].
  rewrite minutes_steps. generalize dependent (minutes_of_day t). clearbody w. intros z Hz R. clear - Hz R W. lia.
Qed.

Lemma wake_override : forall p d, override p d (clock (wake_h d) (wake_m d)) = Some (pa_mean p + pa_dev p).
Proof. intros. unfold override. rewrite Z.eqb_refl. reflexivity. Qed.

Lemma sched_day : forall p d t n x, daily_ok d -> on_grid t -> sched p d t (144 + (144 + n)) x = sched p d t (144 + n) x.
Proof.
  intros p d t n x Hd Hg. rewrite sched_app.
  rewrite (sched_period p d (144 + n) _ t); [|rewrite minutes_steps; pose proof (proj2 (proj2 (hour_minute t))); lia].
  destruct (wake_reached d t Hd Hg) as (k & Hk & Ek). eapply (sched_forget p d (144 + n) t _ _ k); [lia|]. rewrite Ek. apply wake_override.
Qed.

(** Off the grid nothing ever happens. *)
Lemma override_grid : forall p d k, daily_ok d -> (k mod 10 <> 0)%Z -> override p d k = None.
Proof.
  intros p d k (H1 & H2 & H3 & H4) Hk. unfold override, time_ok, clock in *.
  destruct (Z.eqb_spec (60 * wake_h d + wake_m d) k); [lia|]. destruct (Z.eqb_spec (60 * bed_h d + bed_m d) k); [lia|].
  destruct (Z.eqb_spec (60 * back_h d + back_m d) k); [lia|]. destruct (Z.eqb_spec (60 * leave_h d + leave_m d) k); [lia|].
  rewrite andb_false_r. reflexivity.
Qed.

Lemma sched_off : forall p d n t x, daily_ok d -> ~ on_grid t -> sched p d t n x = x.
Proof.
  unfold on_grid. induction n as [|n IH]; intros t x Hd Hg; [reflexivity|]. cbn [sched].
  assert (G : (minutes_of_day (t + ten_minutes) mod 10 <> 0)%Z) by (rewrite minutes_step; pose proof (proj2 (proj2 (hour_minute t))); lia).
  rewrite override_grid by assumption. apply IH; assumption.
Qed.

(** The sampled times. *)
Lemma fixed_ok : forall a b c d e f g, (a < 4)%nat -> (b < 6)%nat -> (d < 20)%nat -> (e < 20)%nat -> (f < 5)%nat -> (g < 6)%nat ->
  daily_ok (fixed_patterns a b c d e f g).
Proof.
  intros a b c d e f g H1 H2 H3 H4 H5 H6. unfold fixed_patterns, daily_ok, time_ok. cbv zeta. cbn [wake_h wake_m leave_h leave_m back_h back_m bed_h bed_m]. lia.
Qed.

Lemma override_asks : forall p d k v, asks d k v -> exists q, override p d k = Some q /\ q == pa_mean p + v * pa_dev p.
Proof.
  intros p d k v H. unfold override. destruct H as [E|E1 E2|E1 E2 E3|E1 E2 E3 E4 E5].
  - apply Z.eqb_eq in E. rewrite E. eexists. split; [reflexivity|ring].
  - apply Z.eqb_neq in E1. apply Z.eqb_eq in E2. rewrite E1, E2. eexists. split; [reflexivity|ring].
  - apply Z.eqb_neq in E1, E2. apply Z.eqb_eq in E3. rewrite E1, E2, E3. eexists. split; [reflexivity|ring].
  - apply Z.eqb_neq in E1, E2, E3. apply Z.eqb_eq in E5. rewrite E1, E2, E3, E4, E5. eexists. split; [reflexivity|ring].
Qed.

Lemma override_quiet : forall p d k, quiet d k -> override p d k = None.
Proof.
  intros p d k (E1 & E2 & E3 & E4). unfold override. apply Z.eqb_neq in E1, E2, E3. rewrite E1, E2, E3.
  destruct (changes d); [|reflexivity]. specialize (E4 eq_refl). apply Z.eqb_neq in E4. rewrite E4. reflexivity.
Qed.

Lemma sched_quiet : forall p d n t x, (forall j, (0 < j <= n)%nat -> quiet d (clock_after t j)) -> sched p d t n x = x.
Proof.
  induction n as [|n IH]; intros t x H; cbn [sched]; [reflexivity|].
  rewrite override_quiet. 2:{ specialize (H 1%nat ltac:(lia)). unfold clock_after in H. replace (t + ten_minutes)%Z with (t + Z.of_nat 1 * 600000000)%Z by (unfold ten_minutes; lia). exact H. }
  cbn [apply_over]. apply IH. intros j Hj. specialize (H (S j) ltac:(lia)). unfold clock_after in *.
  replace (t + ten_minutes + Z.of_nat j * 600000000)%Z with (t + Z.of_nat (S j) * 600000000)%Z by (unfold ten_minutes; lia). exact H.
Qed.

Lemma sched_latest : forall p d n t x k v, (0 < k <= n)%nat -> asks d (clock_after t k) v ->
  (forall j, (k < j <= n)%nat -> quiet d (clock_after t j)) -> sched p d t n x == pa_mean p + v * pa_dev p.
Proof.
  intros p d n t x k v Hk Ha Hq. destruct k as [|k]; [lia|]. replace n with (k + S (n - S k))%nat by lia. rewrite sched_app. cbn [sched].
  destruct (override_asks p d _ v Ha) as (q & Eq & Hv). unfold clock_after in *.
  replace (t + Z.of_nat k * ten_minutes + ten_minutes)%Z with (t + Z.of_nat (S k) * 600000000)%Z by (unfold ten_minutes; lia).
  rewrite Eq. cbn [apply_over]. rewrite sched_quiet; [exact Hv|]. intros j Hj. specialize (Hq (S k + j)%nat ltac:(lia)). unfold clock_after in *.
  replace (t + Z.of_nat (S k) * 600000000 + Z.of_nat j * 600000000)%Z with (t + Z.of_nat (S k + j) * 600000000)%Z by lia. exact Hq.
Qed.

(** An empty fluctuating household stays at the low temperature. *)
Lemma empty_low : forall l time inc h s m d, has_label h s -> fluctuating s -> documented s m d -> s_T h == 16 -> s_occ h = 0%nat -> s_act h = 0%nat ->
  Forall (fun e => e_occ e = 0%nat /\ consistent e) l -> s_T (house_run time inc l h) == 16.
Proof.
  induction l as [|e l IH]; intros time inc h s m d Hl Hf Hd Ht Ho Ha Hall; simpl; [exact Ht|].
  inversion Hall as [|? ? [E1 E2] R]; subst. specialize (E2 E1).
  destruct (fluct_step (time + inc) (e_occ e) (e_act e) (e_comfort e) (e_raise e) h s m d Hl Hf Hd) as [K _].
  destruct (K (or_introl E2)) as (_ & _ & _ & _ & K5). destruct (update_fields (time + inc) (e_occ e) (e_act e) (e_comfort e) (e_raise e) h) as (_ & _ & F3 & F4).
  apply (IH _ _ _ s m d); [apply has_label_update; exact Hl|exact Hf|exact Hd| |congruence|congruence|exact R].
  rewrite K5; [exact Ht|rewrite E1, Ho; lia|rewrite E2, Ha; lia].
Qed.

(** The whole simulator. *)
Lemma sp_step_ok : forall occ act draws inc x x', length draws = length (ss_houses x) -> sp_step occ act draws inc x = Ok x' ->
  ss_time x' = (ss_time x + inc)%Z /\ length (ss_houses x') = length (ss_houses x) /\
  forall k h, at_ (ss_houses x) k h -> exists o a b r, at_ occ k o /\ at_ act k a /\ at_ draws k (b, r) /\
    at_ (ss_houses x') k (update_house (ss_time x + inc) o a b r h).
Proof.
  intros occ act draws inc x x' Hd H. unfold sp_step in H. destruct (Nat.eqb_spec (length occ) (length (ss_houses x))) as [Ho|]; [|discriminate].
  destruct (Nat.eqb_spec (length act) (length (ss_houses x))) as [Ha|]; [|discriminate]. cbn [andb] in H. injection H as <-. cbn [ss_time ss_houses].
  split; [reflexivity|]. split; [rewrite map_length, !combine_length; lia|]. intros k h Hk.
  assert (L : (k < length (ss_houses x))%nat) by (apply nth_error_Some; unfold at_ in Hk; congruence).
  destruct (nth_error occ k) as [o|] eqn:Eo; [|apply nth_error_None in Eo; lia].
  destruct (nth_error act k) as [a|] eqn:Ea; [|apply nth_error_None in Ea; lia].
  destruct (nth_error draws k) as [[b r]|] eqn:Ed; [|apply nth_error_None in Ed; lia].
  exists o, a, b, r. split; [exact Eo|]. split; [exact Ea|]. split; [exact Ed|]. unfold at_.
  rewrite nth_error_map, !Parse_GroupProofs.combine_nth_error, Eo, Ea, Ed. unfold at_ in Hk. rewrite Hk. reflexivity.
Qed.
