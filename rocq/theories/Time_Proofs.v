(** * Proofs about time-aware simulators and callbacks. *)

From Coq Require Import List ZArith Bool Lia ZifyBool ZifyNat ZifyN Znumtheory.
From Verif Require Import Prelude PreludeFacts SpecBase SpecBaseFacts Time_Model Time_Spec.
Import ListNotations.
Local Open Scope Z_scope.
Ltac Zify.zify_post_hook ::= Z.div_mod_to_equations.

(** ** Calendar *)

Definition valid (d : date) : Prop :=
  1 <= year d /\ 1 <= month d <= 12 /\ 1 <= day d <= days_in_month (year d) (month d).

Lemma is_leap_iff : forall y, is_leap y = true <-> leap_year y.
Proof.
  intro y. unfold is_leap, leap_year.
  rewrite andb_true_iff, orb_true_iff, negb_true_iff, !Z.eqb_eq, Z.eqb_neq.
  rewrite !Z.mod_divide by lia. reflexivity.
Qed.

Lemma days_in_month_ge : forall y m, 28 <= days_in_month y m <= 31.
Proof. intros y m. unfold days_in_month. destruct (m =? 2), (is_leap y); destruct ((m =? 4) || (m =? 6) || (m =? 9) || (m =? 11)); lia. Qed.

Lemma date_of_0 : date_of 0 = mkDate 1 1 1.
Proof. reflexivity. Qed.

Lemma date_of_succ : forall n, 0 <= n -> date_of (n + 1) = next_date (date_of n).
Proof.
  intros n Hn. unfold date_of. replace (Z.to_N (n + 1)) with (N.succ (Z.to_N n)) by lia.
  apply N.iter_succ.
Qed.

Lemma next_valid : forall d, valid d -> valid (next_date d).
Proof.
  intros d (Hy & Hm & Hd). unfold next_date.
  destruct (Z.ltb_spec (day d) (days_in_month (year d) (month d))).
  - repeat split; simpl; try lia.
  - destruct (Z.ltb_spec (month d) 12); repeat split; simpl; try lia.
    + pose proof (days_in_month_ge (year d) (month d + 1)). lia.
    + pose proof (days_in_month_ge (year d + 1) 1). lia.
Qed.

Lemma date_of_valid : forall n, 0 <= n -> valid (date_of n).
Proof.
  apply natlike_ind.
  - rewrite date_of_0. repeat split; simpl; try lia. unfold days_in_month; simpl. lia.
  - intros n Hn IH. unfold Z.succ. rewrite date_of_succ by lia. apply next_valid; auto.
Qed.

Lemma month_cases : forall m, 1 <= m <= 12 ->
  m = 1 \/ m = 2 \/ m = 3 \/ m = 4 \/ m = 5 \/ m = 6 \/ m = 7 \/ m = 8 \/ m = 9 \/ m = 10 \/ m = 11 \/ m = 12.
Proof. lia. Qed.

Lemma div_pred : forall y k, 0 < k -> y / k - (y - 1) / k = if y mod k =? 0 then 1 else 0.
Proof.
  intros y k Hk. pose proof (Z.div_mod y k ltac:(lia)) as E. pose proof (Z.mod_pos_bound y k Hk) as B.
  destruct (Z.eqb_spec (y mod k) 0) as [H|H].
  - assert (F : (y - 1) / k = y / k - 1) by (symmetry; apply (Z.div_unique_pos _ _ _ (k - 1)); nia). lia.
  - assert (F : (y - 1) / k = y / k) by (symmetry; apply (Z.div_unique_pos _ _ _ (y mod k - 1)); nia). lia.
Qed.

Lemma mod_mul_0 : forall y a b, 0 < a -> 0 < b -> y mod (a * b) = 0 -> y mod a = 0.
Proof.
  intros y a b Ha Hb H. apply Z.mod_divide in H; [|nia]. destruct H as [q ->].
  replace (q * (a * b)) with (q * b * a) by ring. apply Z.mod_mul. lia.
Qed.

Lemma year_length : forall y, days_before_year (y + 1) = days_before_year y + (if is_leap y then 366 else 365).
Proof.
  intro y. unfold days_before_year, is_leap.
  replace (y + 1 - 1) with y by lia.
  pose proof (div_pred y 4 ltac:(lia)) as D4. pose proof (div_pred y 100 ltac:(lia)) as D100.
  pose proof (div_pred y 400 ltac:(lia)) as D400.
  pose proof (mod_mul_0 y 4 25 ltac:(lia) ltac:(lia)) as M1. pose proof (mod_mul_0 y 100 4 ltac:(lia) ltac:(lia)) as M2.
  change (4 * 25) with 100 in M1. change (100 * 4) with 400 in M2.
  generalize dependent (y / 4). generalize dependent (y / 100). generalize dependent (y / 400).
  generalize dependent ((y - 1) / 4). generalize dependent ((y - 1) / 100). generalize dependent ((y - 1) / 400).
  generalize dependent (y mod 4). generalize dependent (y mod 100). generalize dependent (y mod 400).
  intros a b Hab c Hbc. intros.
  destruct (Z.eqb_spec c 0), (Z.eqb_spec b 0), (Z.eqb_spec a 0); cbn [andb orb negb]; lia.
Qed.

Lemma ordinal_next : forall d, valid d ->
  ordinal (is_leap (year (next_date d))) (next_date d) = ordinal (is_leap (year d)) d + 1.
Proof.
  intros [y m dd] (Hy & Hm & Hd); simpl in *. unfold next_date; simpl.
  destruct (Z.ltb_spec dd (days_in_month y m)) as [Hlt|Hge].
  - unfold ordinal; simpl. lia.
  - assert (dd = days_in_month y m) by lia. subst dd. clear Hd Hge.
    destruct (Z.ltb_spec m 12) as [Hlt|Hge].
    + unfold ordinal; simpl. unfold days_before_month, days_in_month.
      destruct (month_cases m Hm) as [->|[->|[->|[->|[->|[->|[->|[->|[->|[->|[->| ->]]]]]]]]]]]; try lia;
        destruct (is_leap y); simpl; lia.
    + assert (m = 12) by lia. subst m. unfold ordinal; simpl. rewrite year_length.
      unfold days_before_month, days_in_month; simpl. destruct (is_leap y), (is_leap (y + 1)); simpl; lia.
Qed.

Theorem ordinal_date_of : forall n, 0 <= n -> ordinal (is_leap (year (date_of n))) (date_of n) = n + 1.
Proof.
  apply natlike_ind.
  - rewrite date_of_0. reflexivity.
  - intros n Hn IH. unfold Z.succ. rewrite date_of_succ by lia.
    rewrite ordinal_next by (apply date_of_valid; auto). lia.
Qed.

Lemma date_of_inj : forall n m, 0 <= n -> 0 <= m -> date_of n = date_of m -> n = m.
Proof.
  intros n m Hn Hm H. pose proof (ordinal_date_of n Hn) as H1. pose proof (ordinal_date_of m Hm) as H2.
  rewrite H in H1. lia.
Qed.

Lemma next_day_differs : forall d, valid d -> day (next_date d) <> day d.
Proof.
  intros d (_ & _ & Hd). pose proof (days_in_month_ge (year d) (month d)). unfold next_date.
  destruct (Z.ltb_spec (day d) (days_in_month (year d) (month d))); [simpl; lia|].
  destruct (month d <? 12); simpl; lia.
Qed.

Lemma next_day_gt_iff : forall d, valid d -> (day (next_date d) > day d <-> day (next_date d) <> 1).
Proof.
  intros d (_ & _ & Hd). pose proof (days_in_month_ge (year d) (month d)). unfold next_date.
  destruct (Z.ltb_spec (day d) (days_in_month (year d) (month d))); [simpl; lia|].
  destruct (month d <? 12); simpl; lia.
Qed.

(** Within a step of at most one day the day index moves by zero or one. *)
Lemma day_index_step : forall t s, 0 < s <= us_per_day ->
  (t + s) / us_per_day = t / us_per_day \/ (t + s) / us_per_day = t / us_per_day + 1.
Proof. intros t s Hs. unfold us_per_day in *. lia. Qed.

Lemma date_changes_iff : forall t s, 0 <= t -> 0 < s <= us_per_day ->
  (date_at (t + s) <> date_at t <-> (t + s) / us_per_day = t / us_per_day + 1).
Proof.
  intros t s Ht Hs. assert (0 <= t / us_per_day) by (unfold us_per_day; lia).
  unfold date_at. destruct (day_index_step t s Hs) as [E|E]; rewrite E; split; intro H'.
  - congruence.
  - lia.
  - reflexivity.
  - intro E'. apply date_of_inj in E'; lia.
Qed.

Lemma day_changes_iff : forall t s, 0 <= t -> 0 < s <= us_per_day ->
  (day (date_at (t + s)) <> day (date_at t) <-> date_at (t + s) <> date_at t).
Proof.
  intros t s Ht Hs. assert (0 <= t / us_per_day) by (unfold us_per_day; lia).
  rewrite date_changes_iff by auto. unfold date_at.
  destruct (day_index_step t s Hs) as [E|E]; rewrite E; split; intro H'; try lia; auto.
  rewrite date_of_succ by lia. apply next_day_differs, date_of_valid; auto.
Qed.

Lemma day_grows_iff : forall t s, 0 <= t -> 0 < s <= us_per_day ->
  (day (date_at (t + s)) > day (date_at t) <-> date_at (t + s) <> date_at t /\ day (date_at (t + s)) <> 1).
Proof.
  intros t s Ht Hs. assert (0 <= t / us_per_day) by (unfold us_per_day; lia).
  rewrite date_changes_iff by auto. unfold date_at.
  destruct (day_index_step t s Hs) as [E|E]; rewrite E.
  - lia.
  - rewrite date_of_succ by lia. rewrite next_day_gt_iff by (apply date_of_valid; auto). tauto.
Qed.

(** ** Steps *)

Lemma tstep_iff : forall U (body : U -> result U) s s',
  tstep body s = Ok s' <-> advanced U s s' /\ not_called U body s s'.
Proof.
  intros U body s s'. unfold tstep, not_called, advanced. split.
  - destruct (body (user s)); simpl; intro H; [|discriminate]. injection H as <-. simpl. auto.
  - intros [(H1 & H2 & H3) H]. rewrite H. simpl. destruct s'; simpl in *; subst. reflexivity.
Qed.

Lemma tstep_advances : forall U (body : U -> result U), advances U (tstep body).
Proof. intros U body s s' H. apply tstep_iff in H. tauto. Qed.

Lemma after_iff : forall U on body s s' (b : bool),
  bind (tstep body s) (fun x => if b then call_back on x else Ok x) = Ok s' <->
  advanced U s s' /\ (if b then called_after U on body s s' else not_called U body s s').
Proof.
  intros U on body s s' b. unfold tstep, call_back, advanced, called_after, not_called.
  destruct (body (user s)) as [u|e] eqn:E; simpl; split; try discriminate.
  - destruct b.
    + simpl. destruct (on u) eqn:Eo; simpl; intro H; [|discriminate]. injection H as <-; simpl.
      split; auto. exists u; auto.
    + intro H; injection H as <-; simpl. auto.
  - intros [(H1 & H2 & H3) H]. destruct b.
    + destruct H as (u' & H & Ho). injection H as <-. simpl. rewrite Ho. simpl. destruct s'; simpl in *; subst; reflexivity.
    + injection H as ->. destruct s'; simpl in *; subst; reflexivity.
  - intros [_ H]. destruct b; [destruct H as (u' & H & _)|]; discriminate.
Qed.

Lemma before_iff : forall U on body s s' (b : bool),
  bind (if b then call_back on s else Ok s) (tstep body) = Ok s' <->
  advanced U s s' /\ (if b then called_before U on body s s' else not_called U body s s').
Proof.
  intros U on body s s' b. destruct b; simpl.
  - unfold call_back, called_before. destruct (on (user s)) as [u|e]; simpl.
    + rewrite tstep_iff. unfold advanced, not_called; simpl. split.
      * intros [H1 H2]. split; auto. exists u; auto.
      * intros [H1 (u' & H2 & H3)]. injection H2 as <-. auto.
    + split; [discriminate|]. intros [_ (u & H & _)]; discriminate.
  - apply tstep_iff.
Qed.

Ltac of_bool b E :=
  match goal with
  | |- context [if ?c then _ else _] => destruct c eqn:E
  | H : context [if ?c then _ else _] |- _ => destruct c eqn:E
  end.

Theorem after_next_day_step : forall U on body s s' r, 0 <= now s -> 0 < step_size s <= us_per_day ->
  (decorated AfterNextDay r on (tstep body) s = Ok s' <->
   advanced U s s' /\
   ((date_at (now s') <> date_at (now s) /\ called_after U on body s s') \/
    (date_at (now s') = date_at (now s) /\ not_called U body s s'))).
Proof.
  intros U on body s s' r Hn Hs. unfold decorated.
  assert (E0 : bind (tstep body s) (fun x => if negb (day (date_at (now x)) =? day (date_at (now s))) then call_back on x else Ok x)
             = bind (tstep body s) (fun x => if negb (day (date_at (now s + step_size s)) =? day (date_at (now s))) then call_back on x else Ok x)).
  { unfold tstep. destruct (body (user s)); reflexivity. }
  rewrite E0, after_iff.
  pose proof (day_changes_iff (now s) (step_size s) Hn Hs) as D.
  split; intros [Ha H]; split; auto.
  - destruct Ha as (-> & _). of_bool b E.
    + left. split; auto. apply D. lia.
    + right. split; auto. destruct (Z.eq_dec (day (date_at (now s + step_size s))) (day (date_at (now s)))) as [e|ne]; [|lia].
      destruct (day_index_step (now s) (step_size s) Hs) as [E1|E1].
      * unfold date_at. rewrite E1. reflexivity.
      * exfalso. apply (proj2 D); auto. apply date_changes_iff; auto.
  - destruct Ha as (Ea & _). rewrite Ea in H. of_bool b E.
    + destruct H as [[_ H]|[H _]]; auto. rewrite H in E. lia.
    + destruct H as [[H _]|[_ H]]; auto. apply D in H. lia.
Qed.

Lemma date_eq_or : forall t s, 0 <= t -> 0 < s <= us_per_day ->
  date_at (t + s) = date_at t \/ date_at (t + s) <> date_at t.
Proof.
  intros t s Ht Hs. destruct (day_index_step t s Hs) as [E|E].
  - left. unfold date_at. rewrite E. reflexivity.
  - right. apply date_changes_iff; auto.
Qed.

(** What before_next_day really does: the first day of a month is missed. *)
Theorem before_next_day_step : forall U on body s s' r, 0 <= now s -> 0 < step_size s <= us_per_day ->
  (decorated BeforeNextDay r on (tstep body) s = Ok s' <->
   advanced U s s' /\
   ((date_at (now s') <> date_at (now s) /\ day (date_at (now s')) <> 1 /\ called_before U on body s s') \/
    ((date_at (now s') = date_at (now s) \/ day (date_at (now s')) = 1) /\ not_called U body s s'))).
Proof.
  intros U on body s s' r Hn Hs. unfold decorated. cbv zeta. rewrite before_iff.
  pose proof (day_grows_iff (now s) (step_size s) Hn Hs) as D.
  pose proof (day_changes_iff (now s) (step_size s) Hn Hs) as D2.
  split; intros [Ha H]; split; auto.
  - destruct Ha as (-> & _). of_bool b E.
    + left. assert (D' : day (date_at (now s + step_size s)) > day (date_at (now s))) by lia. apply D in D'. tauto.
    + right. split; auto. destruct (date_eq_or (now s) (step_size s) Hn Hs) as [E1|E1]; auto.
      right. destruct (Z.eq_dec (day (date_at (now s + step_size s))) 1); auto. assert (day (date_at (now s + step_size s)) > day (date_at (now s))) by tauto. lia.
  - destruct Ha as (Ea & _). rewrite Ea in H. of_bool b E.
    + destruct H as [(_ & _ & H)|[H _]]; auto.
      assert (D' : day (date_at (now s + step_size s)) > day (date_at (now s))) by lia. apply D in D'. tauto.
    + destruct H as [(H1 & H2 & _)|[_ H]]; auto. assert (day (date_at (now s + step_size s)) > day (date_at (now s))) by tauto. lia.
Qed.

(** *** 4 am *)

Definition four : Z := 4 * us_per_hour.

Lemma hour4_iff : forall t s, 0 < s <= us_per_hour ->
  ((hour_at (t + s) =? 4) && negb (hour_at t =? 4) = true <-> crosses four t (t + s)).
Proof.
  intros t s Hs. rewrite andb_true_iff, negb_true_iff, Z.eqb_eq, Z.eqb_neq.
  unfold hour_at, time_of_day, crosses, four, us_per_hour, us_per_day in *. split.
  - intros [H1 H2]. exists ((t + s) / 86400000000 * 86400000000 + 14400000000). split.
    + rewrite Z.add_comm, Z.mod_add by lia. reflexivity.
    + lia.
  - intros (x & Hx & H). lia.
Qed.

Lemma crosses_iff : forall t a b, 0 <= t < us_per_day -> a <= b ->
  (crosses t a b <-> 0 < crossings t a b).
Proof.
  intros t a b Ht Hab. unfold crosses, crossings, us_per_day in *. split.
  - intros (x & Hx & H). lia.
  - intro H. exists ((b - t) / 86400000000 * 86400000000 + t). split; [|lia].
    rewrite Z.add_comm, Z.mod_add by lia. apply Z.mod_small; auto.
Qed.

Theorem after_4am_step : forall U on body s s' r, 0 < step_size s <= us_per_hour ->
  (decorated After4am r on (tstep body) s = Ok s' <->
   advanced U s s' /\
   ((crosses four (now s) (now s') /\ called_after U on body s s') \/
    (~ crosses four (now s) (now s') /\ not_called U body s s'))).
Proof.
  intros U on body s s' r Hs. unfold decorated.
  assert (E0 : bind (tstep body s) (fun x => if (hour_at (now x) =? 4) && negb (hour_at (now s) =? 4) then call_back on x else Ok x)
             = bind (tstep body s) (fun x => if (hour_at (now s + step_size s) =? 4) && negb (hour_at (now s) =? 4) then call_back on x else Ok x)).
  { unfold tstep. destruct (body (user s)); reflexivity. }
  rewrite E0, after_iff. pose proof (hour4_iff (now s) (step_size s) Hs) as D.
  split; intros [Ha H]; split; auto.
  - destruct Ha as (-> & _). of_bool b E; [left|right]; split; auto; [tauto|]. intro C. apply D in C. congruence.
  - destruct Ha as (Ea & _). rewrite Ea in H. of_bool b E.
    + destruct H as [[_ H]|[H _]]; auto. exfalso. apply H, D; reflexivity.
    + destruct H as [[H _]|[_ H]]; auto. apply D in H. discriminate.
Qed.

Theorem before_4am_step : forall U on body s s' r, 0 < step_size s <= us_per_hour ->
  (decorated Before4am r on (tstep body) s = Ok s' <->
   advanced U s s' /\
   ((crosses four (now s) (now s') /\ called_before U on body s s') \/
    (~ crosses four (now s) (now s') /\ not_called U body s s'))).
Proof.
  intros U on body s s' r Hs. unfold decorated. cbv zeta. rewrite before_iff.
  pose proof (hour4_iff (now s) (step_size s) Hs) as D.
  split; intros [Ha H]; split; auto.
  - destruct Ha as (-> & _). of_bool b E; [left|right]; split; auto; [tauto|]. intro C. apply D in C. congruence.
  - destruct Ha as (Ea & _). rewrite Ea in H. of_bool b E.
    + destruct H as [[_ H]|[H _]]; auto. exfalso. apply H, D; reflexivity.
    + destruct H as [[H _]|[_ H]]; auto. apply D in H. discriminate.
Qed.

(** *** Refresh time *)

Theorem after_refresh_step : forall U on body s s' r,
  (decorated AfterRefresh r on (tstep body) s = Ok s' <->
   advanced U s s' /\
   ((now s mod us_per_day = r /\ called_after U on body s s') \/
    (now s mod us_per_day <> r /\ not_called U body s s'))).
Proof.
  intros U on body s s' r. unfold decorated. rewrite after_iff. unfold time_of_day.
  split; intros [Ha H]; split; auto.
  - of_bool b E; [left|right]; split; auto; lia.
  - of_bool b E; destruct H as [[H1 H]|[H1 H]]; auto; lia.
Qed.

Theorem before_refresh_step : forall U on body s s' r,
  (decorated BeforeRefresh r on (tstep body) s = Ok s' <->
   advanced U s s' /\
   ((now s mod us_per_day = r /\ called_before U on body s s') \/
    (now s mod us_per_day <> r /\ not_called U body s s'))).
Proof.
  intros U on body s s' r. unfold decorated. rewrite before_iff. unfold time_of_day.
  split; intros [Ha H]; split; auto.
  - of_bool b E; [left|right]; split; auto; lia.
  - of_bool b E; destruct H as [[H1 H]|[H1 H]]; auto; lia.
Qed.

(** ** Histories of counting simulators: the callback adds one *)

Definition count_on (n : Z) : result Z := Ok (n + 1).
Definition idle (n : Z) : result Z := Ok n.

(** Generic counting: if one step fires exactly [f t] times, n steps fire the sum. *)
Lemma count_history : forall (step : tsim Z -> result (tsim Z)) (f : Z -> Z) (d : Z) (P : Z -> Prop),
  (forall t, P t -> P (t + d)) ->
  (forall s, P (now s) -> step_size s = d -> step s = Ok (mkT (now s + d) d (ticks s + 1) (user s + f (now s)))) ->
  forall n s, P (now s) -> step_size s = d -> exists s', iterate n step s = Ok s' /\
    now s' = now s + Z.of_nat n * d /\ step_size s' = d /\ ticks s' = ticks s + Z.of_nat n /\
    user s' = user s + total_Z (map (fun i => f (now s + Z.of_nat i * d)) (seq 0 n)).
Proof.
  intros step f d P HP Hstep. induction n as [|n IH]; intros s Hp Hd.
  - exists s. simpl. repeat split; auto; try lia.
  - cbn [iterate]. rewrite (Hstep s Hp Hd). cbn [bind]. set (s1 := mkT (now s + d) d (ticks s + 1) (user s + f (now s))).
    destruct (IH s1) as (s' & E & H1 & H2 & H3 & H4); auto; [simpl; auto|].
    exists s'. split; auto. unfold s1 in *; cbn [now user ticks Time_Model.step_size] in *.
    split; [rewrite Nat2Z.inj_succ; nia|]. split; [exact H2|]. split; [lia|].
    rewrite H4. cbn [seq map total_Z fold_right].
    rewrite <- seq_shift, map_map. unfold total_Z.
    rewrite (map_ext (fun i => f (now s + d + Z.of_nat i * d)) (fun i => f (now s + Z.of_nat (S i) * d))).
    + replace (now s + Z.of_nat 0 * d) with (now s) by lia. lia.
    + intro i. f_equal. rewrite Nat2Z.inj_succ. ring.
Qed.

Lemma telescope : forall (g : Z -> Z) t d n,
  total_Z (map (fun i => g (t + Z.of_nat i * d + d) - g (t + Z.of_nat i * d)) (seq 0 n)) = g (t + Z.of_nat n * d) - g t.
Proof.
  intros g t d n. induction n as [|n IH].
  - simpl. replace (t + 0) with t by lia. lia.
  - rewrite seq_S, map_app. unfold total_Z in *. rewrite fold_right_app. simpl fold_right at 2.
    assert (A : forall l a, fold_right Z.add a l = fold_right Z.add 0 l + a).
    { clear. induction l as [|x l IH]; intro a; simpl; [lia|]. rewrite IH. lia. }
    rewrite A, IH. simpl Nat.add. replace (t + Z.of_nat (S n) * d) with (t + Z.of_nat n * d + d) by lia. lia.
Qed.

Lemma mkT_eq : forall U (s : tsim U) a b c u, now s = a -> step_size s = b -> ticks s = c -> user s = u -> s = mkT a b c u.
Proof. intros U [a b c u] a' b' c' u'; simpl; congruence. Qed.

Theorem after_next_day_count : forall n s r, 0 <= now s -> 0 < step_size s <= us_per_day ->
  exists s', iterate n (decorated AfterNextDay r count_on (tstep idle)) s = Ok s' /\
    now s' = now s + Z.of_nat n * step_size s /\
    user s' - user s = crossings 0 (now s) (now s').
Proof.
  intros n s r Hn Hs.
  destruct (count_history (decorated AfterNextDay r count_on (tstep idle))
     (fun t => (t + step_size s) / us_per_day - t / us_per_day) (step_size s) (fun t => 0 <= t)
     ltac:(cbv beta; intros; clear - Hs H; lia)) with (n := n) (s := s) as (s' & E & H1 & H2 & H3 & H4); auto.
  - intros x Hx Hd. apply after_next_day_step; try lia.
    unfold advanced, called_after, not_called, count_on, idle; simpl. split; [rewrite Hd; auto|].
    assert (Hs' : 0 < step_size s <= us_per_day) by lia.
    destruct (date_eq_or (now x) (step_size s) Hx Hs') as [E|E].
    + right. split; auto. f_equal. destruct (day_index_step (now x) (step_size s) Hs') as [E1|E1]; [lia|].
      exfalso. apply (proj2 (date_changes_iff (now x) (step_size s) Hx Hs') E1); auto.
    + left. split; auto. exists (user x). split; auto. apply date_changes_iff in E; auto. f_equal. lia.
  - exists s'. split; auto. split; auto. rewrite H4, H1. unfold crossings.
    rewrite (telescope (fun t => t / us_per_day)). rewrite !Z.sub_0_r. lia.
Qed.

Lemma crossings_step : forall t s, 0 < s <= us_per_day -> crossings four t (t + s) = 0 \/ crossings four t (t + s) = 1.
Proof. intros t s Hs. unfold crossings, four, us_per_hour, us_per_day in *. lia. Qed.

Theorem four_am_count : forall k n s r, k = Before4am \/ k = After4am -> 0 < step_size s <= us_per_hour ->
  exists s', iterate n (decorated k r count_on (tstep idle)) s = Ok s' /\
    now s' = now s + Z.of_nat n * step_size s /\
    user s' - user s = crossings four (now s) (now s').
Proof.
  intros k n s r Hk Hs.
  assert (Hd : 0 < step_size s <= us_per_day) by (unfold us_per_hour, us_per_day in *; lia).
  assert (Hf : 0 <= four < us_per_day) by (unfold four, us_per_hour, us_per_day; lia).
  destruct (count_history (decorated k r count_on (tstep idle))
     (fun t => (t + step_size s - four) / us_per_day - (t - four) / us_per_day) (step_size s) (fun t => True)
     ltac:(auto)) with (n := n) (s := s) as (s' & E & H1 & H2 & H3 & H4); auto.
  - intros x _ Hx.
    pose proof (crossings_step (now x) (step_size s) Hd) as C.
    pose proof (crosses_iff four (now x) (now x + step_size s) Hf ltac:(lia)) as D. unfold crossings in C, D.
    destruct Hk as [-> | ->]; [apply before_4am_step|apply after_4am_step]; try lia;
      unfold advanced, called_before, called_after, not_called, count_on, idle; simpl; rewrite Hx; (split; [auto|]);
      (destruct C as [C|C]; [right|left]; split;
         [intro X; apply D in X; lia | f_equal; lia | apply D; lia | ]).
    + exists (user x + 1). split; f_equal; lia.
    + exists (user x). split; f_equal; lia.
  - exists s'. split; auto. split; auto. rewrite H4, H1. unfold crossings.
    assert (T := telescope (fun t => (t - four) / us_per_day) (now s) (step_size s) n). simpl in T.
    rewrite T. lia.
Qed.

(** Refresh times on a grid that divides the day. *)
Lemma grid_crossing : forall k step t r, 0 < step -> us_per_day = k * step -> 0 <= r < us_per_day ->
  (t - r) mod step = 0 ->
  ((t mod us_per_day = r -> (t + step - 1 - r) / us_per_day - (t - 1 - r) / us_per_day = 1) /\
   (t mod us_per_day <> r -> (t + step - 1 - r) / us_per_day - (t - 1 - r) / us_per_day = 0)).
Proof.
  intros k step t r Hs Hk Hr Ha.
  assert (Hk0 : 0 < k) by (unfold us_per_day in *; nia).
  apply Z.mod_divide in Ha; [|lia]. destruct Ha as [q Hq].
  assert (Ht : t = q * step + r) by lia. subst t.
  set (D := us_per_day) in *. assert (HD : 0 < D) by (unfold D, us_per_day; lia).
  (* q = k * j + i *)
  pose proof (Z.div_mod q k ltac:(lia)) as Eq. pose proof (Z.mod_pos_bound q k Hk0) as Bi.
  set (j := q / k) in *. set (i := q mod k) in *.
  assert (E1 : q * step = j * D + i * step) by (rewrite Hk; nia).
  assert (E2 : 0 <= i * step <= D - step) by nia.
  assert (F1 : (q * step + r + step - 1 - r) / D = j).
  { symmetry. apply (Z.div_unique_pos _ _ _ (i * step + step - 1)); nia. }
  assert (F2 : (q * step + r - 1 - r) / D = if i =? 0 then j - 1 else j).
  { destruct (Z.eqb_spec i 0) as [Ei|Ei]; symmetry.
    - apply (Z.div_unique_pos _ _ _ (D - 1)); nia.
    - apply (Z.div_unique_pos _ _ _ (i * step - 1)); nia. }
  rewrite F1, F2.
  assert (F3 : (q * step + r) mod D = r <-> i = 0).
  { split.
    - intro H. destruct (Z.eq_dec i 0) as [|Hi]; auto. exfalso.
      assert (H0 : (i * step) mod D = 0).
      { assert (X : (q * step + r - r) mod D = 0).
        { rewrite Zminus_mod, H, (Z.mod_small r D) by lia. rewrite Z.sub_diag. apply Z.mod_0_l; lia. }
        replace (q * step + r - r) with (i * step + j * D) in X by lia. rewrite Z.mod_add in X by lia. exact X. }
      rewrite Z.mod_small in H0 by (clear - E2 Hs; lia).
      apply Z.mul_eq_0 in H0. clear - H0 Hi Hs. destruct H0; lia.
    - intro Hi. rewrite E1, Hi. replace (j * D + 0 * step + r) with (r + j * D) by lia.
      rewrite Z.mod_add by lia. apply Z.mod_small; auto. }
  split; intro H.
  - apply F3 in H. rewrite H. simpl. lia.
  - destruct (Z.eqb_spec i 0) as [Hi|]; [|lia]. exfalso. apply H, F3, Hi.
Qed.

Theorem refresh_count : forall k kb n s r, kb = BeforeRefresh \/ kb = AfterRefresh ->
  0 < step_size s -> us_per_day = k * step_size s -> 0 <= r < us_per_day ->
  (now s - r) mod step_size s = 0 ->
  exists s', iterate n (decorated kb r count_on (tstep idle)) s = Ok s' /\
    now s' = now s + Z.of_nat n * step_size s /\
    user s' - user s = crossings r (now s - 1) (now s' - 1).
Proof.
  intros k kb n s r Hkb Hs Hk Hr Ha.
  destruct (count_history (decorated kb r count_on (tstep idle))
     (fun t => (t + step_size s - 1 - r) / us_per_day - (t - 1 - r) / us_per_day) (step_size s)
     (fun t => (t - r) mod step_size s = 0)) with (n := n) (s := s) as (s' & E & H1 & H2 & H3 & H4); auto.
  - intros t Ht. replace (t + step_size s - r) with (t - r + 1 * step_size s) by lia. rewrite Z.mod_add by lia. exact Ht.
  - intros x Hx Hd. destruct (grid_crossing k (step_size s) (now x) r Hs Hk Hr Hx) as [G1 G2].
    destruct Hkb as [-> | ->]; [apply before_refresh_step|apply after_refresh_step];
      unfold advanced, called_before, called_after, not_called, count_on, idle; simpl; rewrite Hd; (split; [auto|]);
      (destruct (Z.eq_dec (now x mod us_per_day) r) as [C|C]; [left|right]; split; auto).
    + exists (user x + 1). rewrite G1 by auto. auto.
    + rewrite G2 by auto. f_equal. lia.
    + exists (user x). rewrite G1 by auto. auto.
    + rewrite G2 by auto. f_equal. lia.
  - exists s'. split; auto. split; auto. rewrite H4, H1. unfold crossings.
    assert (T := telescope (fun t => (t - 1 - r) / us_per_day) (now s) (step_size s) n). simpl in T.
    rewrite T. lia.
Qed.

Theorem refresh_never : forall U kb on body n s s' r k, kb = BeforeRefresh \/ kb = AfterRefresh ->
  0 < step_size s -> us_per_day = k * step_size s ->
  (now s - r) mod step_size s <> 0 ->
  (iterate n (decorated kb r on (tstep body)) s = Ok s' <-> iterate n (tstep (U := U) body) s = Ok s').
Proof.
  intros U kb on body n. induction n as [|n IH]; intros s s' r k Hkb Hs Hk Ha; [simpl; tauto|].
  assert (Hne : now s mod us_per_day <> r).
  { intro H. apply Ha. apply Z.mod_divide; [lia|]. exists (k * (now s / us_per_day)).
    pose proof (Z.div_mod (now s) us_per_day ltac:(unfold us_per_day; lia)). rewrite Hk in *. nia. }
  assert (E : decorated kb r on (tstep body) s = tstep body s).
  { destruct (tstep body s) as [x|e] eqn:E.
    - pose proof E as E0. apply tstep_iff in E.
      destruct Hkb as [-> | ->]; [apply before_refresh_step|apply after_refresh_step]; tauto.
    - destruct Hkb as [-> | ->]; simpl; unfold time_of_day; destruct (Z.eqb_spec (now s mod us_per_day) r); try tauto; simpl; rewrite E; reflexivity. }
  simpl. rewrite E. destruct (tstep body s) as [x|e] eqn:Ex; simpl; [|tauto].
  apply tstep_iff in Ex as [(H1 & H2 & _) _]. apply (IH x s' r k); auto; rewrite ?H1, ?H2; auto.
  replace (now s + step_size s - r) with (now s - r + 1 * step_size s) by lia. rewrite Z.mod_add by lia. auto.
Qed.

(** ** Initialization *)

Lemma iterate_advances : forall U step n s s', advances U step -> iterate n step s = Ok s' ->
  now s' = now s + Z.of_nat n * step_size s /\ step_size s' = step_size s /\ ticks s' = ticks s + Z.of_nat n.
Proof.
  intros U step. induction n as [|n IH]; intros s s' Ha H; simpl in H.
  - injection H as <-. lia.
  - destruct (step s) as [s1|] eqn:E; simpl in H; [|discriminate]. apply Ha in E as (H1 & H2 & H3).
    apply IH in H as (H4 & H5 & H6); auto. rewrite H4, H5, H6, H2, H1, H3. lia.
Qed.

Lemma init_datetime_resolves : forall i start d, (forall t, i = AtTime t -> 0 <= t < us_per_day) ->
  init_datetime i start = Ok d -> resolves i start d /\ d <= start.
Proof.
  intros i start d Hi H. destruct i as [t|t| |]; simpl in *.
  - specialize (Hi t eq_refl). injection H as <-.
    assert (A : latest_occurrence t start (if start / us_per_day * us_per_day + t >? start
       then start / us_per_day * us_per_day + t - us_per_day else start / us_per_day * us_per_day + t)).
    { unfold latest_occurrence, us_per_day in *.
      destruct (start / 86400000000 * 86400000000 + t >? start) eqn:E; repeat split; try lia. }
    split; auto. apply A.
  - destruct (t >? start) eqn:E; [discriminate|]. injection H as <-. split; auto. lia.
  - injection H as <-. split; auto. lia.
  - discriminate.
Qed.

Theorem t_initialize_spec : forall U step i (s s' : tsim U), advances U step -> 0 < step_size s ->
  (forall t, i = AtTime t -> 0 <= t < us_per_day) ->
  t_initialize i step s = Ok s' ->
  now s' = now s /\ step_size s' = step_size s /\
  exists d, resolves i (now s) d /\ d <= now s /\ whole_steps (step_size s) d (now s) (ticks s').
Proof.
  intros U step i s s' Ha Hs Hi H. unfold t_initialize in H.
  destruct (init_datetime i (now s)) as [d|] eqn:E; simpl in H; [|discriminate].
  apply init_datetime_resolves in E as [Hr Hd]; auto.
  destruct (Z.eqb_spec (step_size s) 0); [lia|].
  rewrite Z.quot_div_nonneg in H by lia.
  assert (Hq : 0 <= (now s - d) / step_size s) by (apply Z.div_pos; lia).
  destruct (Z.ltb_spec ((now s - d) / step_size s) 0); [lia|].
  apply iterate_advances in H as (H1 & H2 & H3); auto. simpl in *.
  rewrite Z2Nat.id in * by auto.
  pose proof (Z.div_mod (now s - d) (step_size s) ltac:(lia)) as Hdm.
  pose proof (Z.mod_pos_bound (now s - d) (step_size s) Hs).
  repeat split; [lia|auto|]. exists d. split; [auto|]. split; [auto|]. unfold whole_steps. rewrite H3. nia.
Qed.

Theorem t_initialize_succeeds : forall U step i (s : tsim U), 0 < step_size s ->
  (forall x, exists y, step x = Ok y) -> (forall t, i = AtTime t -> 0 <= t < us_per_day) ->
  match i with AtDatetime d => d <= now s | AtOther => False | _ => True end ->
  exists s', t_initialize i step s = Ok s'.
Proof.
  intros U step i s Hs Ht Htod Hi.
  assert (It : forall n x, exists y, iterate n step x = Ok y).
  { induction n as [|n IH]; intro x; simpl; eauto. destruct (Ht x) as [y ->]. simpl. apply IH. }
  assert (D : exists d, init_datetime i (now s) = Ok d).
  { destruct i as [t|t| |]; simpl; eauto.
    - destruct (t >? now s) eqn:E; [lia|]. eauto.
    - destruct Hi. }
  destruct D as [d D]. pose proof (init_datetime_resolves i (now s) d Htod D) as [_ Hd].
  unfold t_initialize. rewrite D. simpl. destruct (Z.eqb_spec (step_size s) 0); [lia|].
  rewrite Z.quot_div_nonneg by lia.
  assert (Hq : 0 <= (now s - d) / step_size s) by (apply Z.div_pos; lia).
  destruct (Z.ltb_spec ((now s - d) / step_size s) 0); [lia|]. apply It.
Qed.

Theorem t_initialize_errors : forall U step i (s : tsim U),
  (forall d, i = AtDatetime d -> now s < d -> t_initialize i step s = Err ValueError) /\
  (i = AtOther -> t_initialize i step s = Err NotImplementedError).
Proof.
  intros U step i s. split.
  - intros d -> Hd. unfold t_initialize; simpl. destruct (Z.gtb_spec d (now s)); [reflexivity|lia].
  - intros ->. reflexivity.
Qed.

(** ** Clock *)

Theorem decorated_advances : forall U k r on body, advances U (decorated k r on (tstep body)).
Proof.
  intros U k r on body s s' H. unfold decorated in H.
  destruct k; cbv zeta in H;
  try (apply before_iff in H; tauto);
  unfold tstep in H; destruct (body (user s)) as [u|]; simpl in H; try discriminate;
  match type of H with (if ?c then _ else _) = _ => destruct c end;
  unfold call_back in H; simpl in H; try (destruct (on u); simpl in H; [|discriminate]);
  injection H as <-; repeat split.
Qed.
