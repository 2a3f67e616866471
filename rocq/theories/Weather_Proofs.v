(** * Proofs about the simulated climate. *)

From Coq Require Import List ZArith QArith Bool Arith Lia ZifyBool ZifyNat ZifyN.
From Verif Require Import Prelude PreludeFacts SpecBase Time_Model Time_Spec Time_Proofs Loader_Model Weather_Model Weather_Spec.
Import ListNotations.
Local Open Scope Z_scope.
Ltac Zify.zify_post_hook ::= Z.div_mod_to_equations.

(** ** Months *)

Definition month_index (d : date) : Z := year d * 12 + month d.

Lemma next_month : forall d, valid d ->
  (day (next_date d) = 1 /\ month_index (next_date d) = month_index d + 1) \/
  (day (next_date d) <> 1 /\ month_index (next_date d) = month_index d).
Proof.
  intros d (_ & Hm & Hd). unfold next_date, month_index.
  destruct (Z.ltb_spec (day d) (days_in_month (year d) (month d))); simpl; [right; lia|].
  left. destruct (Z.ltb_spec (month d) 12); simpl; lia.
Qed.

Lemma month_monotone : forall k n, 0 <= n -> month_index (date_of n) <= month_index (date_of (n + Z.of_nat k)).
Proof.
  induction k as [|k IH]; intros n Hn.
  - rewrite Z.add_0_r. lia.
  - replace (n + Z.of_nat (S k)) with (n + Z.of_nat k + 1) by lia. rewrite date_of_succ by lia.
    pose proof (IH n Hn). destruct (next_month _ (date_of_valid (n + Z.of_nat k) ltac:(lia))) as [[_ E]|[_ E]]; lia.
Qed.

Lemma month_le : forall a b, 0 <= a <= b -> month_index (date_of a) <= month_index (date_of b).
Proof. intros a b H. replace b with (a + Z.of_nat (Z.to_nat (b - a))) by lia. apply month_monotone. lia. Qed.

Lemma same_month_iff : forall a b, 0 <= a -> 0 <= b ->
  (same_month a b <-> month_index (date_at a) = month_index (date_at b)).
Proof.
  intros a b Ha Hb. assert (0 <= a / us_per_day /\ 0 <= b / us_per_day) by (unfold us_per_day; lia).
  destruct (date_of_valid (a / us_per_day) ltac:(lia)) as (_ & A & _).
  destruct (date_of_valid (b / us_per_day) ltac:(lia)) as (_ & B & _).
  unfold same_month, month_index, date_at. lia.
Qed.

(** ** The irradiance simulator *)

Section Sun.
Variable rad clr : Z -> Q.

Lemma irradiance_step_eq : forall s, irradiance_step rad clr s =
  Ok (mkT (now s + step_size s) (step_size s) (ticks s + 1) (mkSun (rad (now s)) (clr (now s)))).
Proof. intro s. unfold irradiance_step, decorated, tstep, call_back. simpl. destruct (negb _); reflexivity. Qed.

Lemma irradiance_iterate : forall n s, step_size s = a_minute ->
  iterate n (irradiance_step rad clr) s =
  Ok (mkT (later (now s) n) a_minute (ticks s + Z.of_nat n)
     (mkSun (shown rad (s_irradiance (user s)) (now s) n) (shown clr (s_clearness (user s)) (now s) n))).
Proof.
  induction n as [|n IH]; intros s H.
  - cbn [iterate shown]. f_equal. apply mkT_eq; auto; unfold later; try lia. destruct (user s); reflexivity.
  - cbn [iterate]. rewrite irradiance_step_eq. cbn [bind]. rewrite IH by auto.
    cbn [now step_size ticks user s_irradiance s_clearness]. rewrite H.
    f_equal. f_equal; [unfold later; lia|lia|].
    destruct n; cbn [shown].
    + replace (later (now s) 0) with (now s) by (unfold later; lia). reflexivity.
    + replace (later (now s + a_minute) n) with (later (now s) (S n)) by (unfold later; lia). reflexivity.
Qed.

Variable c0 : Q.
Variable start : Z.
Hypothesis start_pos : 0 <= start.

Definition sun_state (k : nat) : tsim sun :=
  mkT (later start k) a_minute (Z.of_nat (minutes_into_day start + k))
    (mkSun (shown rad 0 start k) (shown clr (clearness_at_start clr c0 start) start k)).

Lemma minutes_spec : Z.of_nat (minutes_into_day start) = start mod us_per_day / a_minute.
Proof. unfold minutes_into_day, us_per_day, a_minute. lia. Qed.

Lemma init_steps : forall U (step : tsim U -> result (tsim U)) u,
  t_initialize (AtTime 0) step (mkT start a_minute 0 u) =
  iterate (minutes_into_day start) step (mkT (start - Z.of_nat (minutes_into_day start) * a_minute) a_minute 0 u).
Proof.
  intros U step u. unfold t_initialize, init_datetime. cbn [now step_size ticks user bind].
  pose proof minutes_spec as M. unfold us_per_day, a_minute in *.
  replace (start / 86400000000 * 86400000000 + 0 >? start) with false by lia.
  cbn [bind]. change (60 * 1000000 =? 0) with false. cbv iota.
  rewrite Z.quot_div_nonneg by lia.
  replace ((start - (start / 86400000000 * 86400000000 + 0)) / (60 * 1000000) <? 0) with false by lia.
  cbv iota. f_equal; [unfold minutes_into_day; f_equal; unfold us_per_day, a_minute; f_equal; lia|].
  f_equal. lia.
Qed.

Lemma make_irradiance_eq : make_irradiance rad clr c0 start a_minute = Ok (sun_state 0).
Proof.
  unfold make_irradiance. rewrite init_steps, irradiance_iterate by reflexivity.
  cbn [bind now step_size ticks user s_clearness s_irradiance]. unfold sun_state. f_equal. f_equal.
  - unfold later. lia.
  - lia.
  - f_equal. cbn [shown]. unfold clearness_at_start.
    destruct (minutes_into_day start) as [|m]; cbn [shown Nat.eqb]; [reflexivity|]. f_equal. unfold later. lia.
Qed.

Lemma sun_state_step : forall k, irradiance_step rad clr (sun_state k) = Ok (sun_state (S k)).
Proof.
  intro k. rewrite irradiance_step_eq. unfold sun_state. cbn [now step_size ticks user shown]. f_equal. f_equal; [unfold later; lia|lia].
Qed.

Lemma simulate_eq : forall n k, simulate rad clr n (sun_state k) =
  Ok (map (fun i => (shown rad 0 start i, shown clr (clearness_at_start clr c0 start) start i)) (seq k n), sun_state (k + n)).
Proof.
  induction n as [|n IH]; intro k; cbn [simulate seq map].
  - rewrite Nat.add_0_r. reflexivity.
  - rewrite sun_state_step. cbn [bind]. rewrite IH. cbn [bind fst snd]. f_equal. f_equal. f_equal. lia.
Qed.

(** ** The climate *)

Variable temps : nat -> list Q -> list Q -> result (list Q).
Variable T : nat -> list Q.
Hypothesis temps_ok : forall d, temps d (stretch rad 0 start d) (stretch clr (clearness_at_start clr c0 start) start d) = Ok (T d).
Hypothesis T_length : forall d, length (T d) = minutes_per_day.

Notation M := minutes_per_day.

Lemma stretch_seq : forall f x d, map (fun i => shown f x start i) (seq (d * M) M) = stretch f x start d.
Proof.
  intros f x d. unfold stretch. fold M. rewrite <- (Nat.add_0_r (d * M)) at 1. generalize 0%nat at 1 2 as b. generalize M at 2 4 as n.
  induction n as [|n IH]; intro b; cbn [seq map]; [reflexivity|]. f_equal. rewrite <- IH. f_equal. f_equal. lia.
Qed.

Lemma refill : forall c d, isim c = sun_state (d * M) -> refills c = d ->
  on_before_next_day rad clr temps c =
  Ok (mkC (sun_state (S d * M)) (stretch rad 0 start d) (T d) (irradiance c) (temperature c) (S d)).
Proof.
  intros c d H1 H2. unfold on_before_next_day. rewrite H1, simulate_eq. cbn [bind fst snd]. rewrite !map_map.
  cbn [fst snd]. rewrite !stretch_seq, H2, temps_ok. cbn [bind]. f_equal. f_equal. f_equal. lia.
Qed.

Lemma stretch_length : forall f x d, length (stretch f x start d) = M.
Proof. intros. unfold stretch. rewrite map_length, seq_length. reflexivity. Qed.

Lemma stretch_nth : forall f x d j, (j < M)%nat -> nth j (stretch f x start d) 0%Q = shown f x start (d * M + j).
Proof.
  intros f x d j H. unfold stretch. fold M. rewrite (nth_indep _ _ ((fun i => shown f x start (d * M + i)) 0%nat)) by (rewrite map_length, seq_length; exact H).
  rewrite (map_nth (fun i => shown f x start (d * M + i))), seq_nth by exact H. reflexivity.
Qed.

Lemma skipn_nth : forall (l : list Q) j, (j < length l)%nat -> skipn j l = nth j l 0%Q :: skipn (S j) l.
Proof. induction l as [|a l IH]; intros [|j] H; simpl in *; try lia; auto. rewrite IH by lia. reflexivity. Qed.

(** The climate [j] minutes into its [d]-th day. *)
Definition climate_at (d j : nat) : climate :=
  mkC (sun_state (S d * M)) (skipn (S j) (stretch rad 0 start d)) (skipn (S j) (T d))
    (shown rad 0 start (d * M + j)) (nth j (T d) 0%Q) (S d).

Lemma pop_at : forall d j i t, (j < M)%nat ->
  pop (mkC (sun_state (S d * M)) (skipn j (stretch rad 0 start d)) (skipn j (T d)) i t (S d)) = Ok (climate_at d j).
Proof.
  intros d j i t H. unfold pop. cbn [irr_iter temp_iter isim refills].
  rewrite (skipn_nth (stretch rad 0 start d)) by (rewrite stretch_length; exact H).
  rewrite (skipn_nth (T d)) by (rewrite T_length; exact H).
  rewrite stretch_nth by exact H. reflexivity.
Qed.

Lemma M_val : Z.of_nat M = 1440.
Proof. unfold minutes_per_day. lia. Qed.

Definition base : Z := start - Z.of_nat (minutes_into_day start) * a_minute.

Lemma base_spec : exists D r, base = D * us_per_day + r /\ 0 <= r < a_minute /\ D = start / us_per_day.
Proof.
  exists (start / us_per_day), (start mod us_per_day mod a_minute). unfold base. rewrite minutes_spec. unfold us_per_day, a_minute. lia.
Qed.

Lemma day_of : forall d j, (j < M)%nat -> later base (d * M + j) / us_per_day = start / us_per_day + Z.of_nat d.
Proof.
  intros d j H. destruct base_spec as (D & r & E & R & F). pose proof M_val. rewrite <- F. unfold later. rewrite E.
  replace (Z.of_nat (d * M + j)) with (Z.of_nat d * 1440 + Z.of_nat j) by nia.
  unfold us_per_day, a_minute in *. symmetry. apply (Z.div_unique_pos _ _ _ (r + Z.of_nat j * (60 * 1000000))); lia.
Qed.

Definition state_at (k : Z) (d j : nat) : tsim climate := mkT (later base (d * M + j)) a_minute k (climate_at d j).

Lemma step_within : forall k d j, (S j < M)%nat ->
  climate_step rad clr temps (state_at k d j) = Ok (state_at (k + 1) d (S j)).
Proof.
  intros k d j H. unfold climate_step, decorated, state_at. cbn [now step_size].
  assert (E : later base (d * M + j) + a_minute = later base (d * M + S j)) by (unfold later; lia).
  rewrite E. unfold date_at. rewrite !day_of by lia.
  replace (_ >? _) with false by lia. cbn [bind]. unfold tstep. cbn [user now step_size ticks].
  unfold climate_at at 1. rewrite pop_at by exact H. cbn [bind]. rewrite E. reflexivity.
Qed.

Lemma step_over : forall k d j, S j = M ->
  climate_step rad clr temps (state_at k d j) =
  if day (date_of (start / us_per_day + Z.of_nat (S d))) =? 1 then Err StopIteration else Ok (state_at (k + 1) (S d) 0).
Proof.
  intros k d j H. unfold climate_step, decorated, state_at. cbn [now step_size].
  assert (E : later base (d * M + j) + a_minute = later base (S d * M + 0)) by (unfold later; nia).
  rewrite E. unfold date_at. rewrite !day_of by lia.
  assert (P : 0 <= start / us_per_day + Z.of_nat d) by (unfold us_per_day; lia).
  replace (start / us_per_day + Z.of_nat (S d)) with (start / us_per_day + Z.of_nat d + 1) by lia.
  rewrite date_of_succ by exact P.
  pose proof (next_day_gt_iff _ (date_of_valid _ P)) as G.
  destruct (Z.eqb_spec (day (next_date (date_of (start / us_per_day + Z.of_nat d)))) 1) as [Y|N].
  - replace (_ >? _) with false by lia. cbn [bind]. unfold tstep. cbn [user]. unfold climate_at, pop. cbn [irr_iter].
    rewrite skipn_all2 by (rewrite stretch_length; lia). reflexivity.
  - replace (_ >? _) with true by lia. unfold call_back. cbn [user].
    rewrite (refill _ (S d)) by reflexivity. cbn [bind]. unfold tstep. cbn [user now step_size ticks].
    pose proof (pop_at (S d) 0 (irradiance (climate_at d j)) (temperature (climate_at d j)) ltac:(lia)) as Q. cbn [skipn] in Q.
    rewrite Q. cbn [bind]. rewrite E. reflexivity.
Qed.

Definition at_index (k : nat) (x : Z) : tsim climate := state_at x (k / M) (k mod M).

Lemma index_next : forall k, (S (k mod M) < M /\ S k / M = k / M /\ S k mod M = S (k mod M))%nat \/
  (S (k mod M) = M /\ S k / M = S (k / M) /\ S k mod M = 0)%nat.
Proof. intro k. unfold minutes_per_day. lia. Qed.

Lemma index_day : forall k, later base k / us_per_day = start / us_per_day + Z.of_nat (k / M).
Proof.
  intro k. rewrite <- (day_of (k / M) (k mod M)) by (unfold minutes_per_day; lia). f_equal. f_equal. unfold minutes_per_day. lia.
Qed.

Lemma base_nonneg : 0 <= base.
Proof. destruct base_spec as (D & r & E & R & F). unfold us_per_day in *. lia. Qed.

Lemma step_index : forall k x,
  climate_step rad clr temps (at_index k x) =
  if month_index (date_at (later base (S k))) =? month_index (date_at (later base k)) then Ok (at_index (S k) (x + 1)) else Err StopIteration.
Proof.
  intros k x. unfold at_index, date_at. rewrite !index_day.
  assert (P : 0 <= start / us_per_day + Z.of_nat (k / M)) by (pose proof (Z.div_pos start us_per_day start_pos ltac:(reflexivity)); pose proof (Nat2Z.is_nonneg (k / M)); lia).
  destruct (index_next k) as [(H & A & B)|(H & A & B)]; rewrite A, B.
  - rewrite step_within by exact H. rewrite Z.eqb_refl. reflexivity.
  - rewrite step_over by exact H.
    replace (start / us_per_day + Z.of_nat (S (k / M))) with (start / us_per_day + Z.of_nat (k / M) + 1) by lia.
    rewrite date_of_succ by exact P.
    destruct (next_month _ (date_of_valid _ P)) as [[U V]|[U V]]; rewrite V.
    + rewrite U. replace (_ + 1 =? _) with false by lia. reflexivity.
    + replace (day _ =? 1) with false by lia. rewrite Z.eqb_refl. reflexivity.
Qed.

Lemma month_later : forall a b, (a <= b)%nat -> month_index (date_at (later base a)) <= month_index (date_at (later base b)).
Proof.
  intros a b H. unfold date_at. pose proof base_nonneg. apply month_le. unfold later, us_per_day, a_minute in *. lia.
Qed.

Lemma iterate_index : forall n k x,
  iterate n (climate_step rad clr temps) (at_index k x) =
  if month_index (date_at (later base (k + n))) =? month_index (date_at (later base k)) then Ok (at_index (k + n) (x + Z.of_nat n)) else Err StopIteration.
Proof.
  induction n as [|n IH]; intros k x; cbn [iterate].
  - rewrite Nat.add_0_r, Z.eqb_refl, Z.add_0_r. reflexivity.
  - rewrite step_index. pose proof (month_later k (S k) ltac:(lia)). pose proof (month_later (S k) (k + S n) ltac:(lia)).
    replace (k + S n)%nat with (S k + n)%nat in * by lia.
    destruct (Z.eqb_spec (month_index (date_at (later base (S k)))) (month_index (date_at (later base k)))) as [E|E]; cbn [bind].
    + rewrite IH, E. destruct (_ =? _); [|reflexivity]. f_equal. f_equal. lia.
    + replace (_ =? _) with false by lia. reflexivity.
Qed.

Lemma at_index_now : forall k x, now (at_index k x) = later base k.
Proof. intros k x. unfold at_index, state_at. cbn [now]. f_equal. unfold minutes_per_day. lia. Qed.

Lemma at_index_irradiance : forall k x, irradiance (user (at_index k x)) = shown rad 0 start k.
Proof. intros k x. unfold at_index, state_at, climate_at. cbn [user irradiance]. f_equal. unfold minutes_per_day. lia. Qed.

Lemma base_start : forall n, later base (minutes_into_day start + n) = later start n.
Proof. intro n. unfold later, base. lia. Qed.

Lemma minutes_lt : (minutes_into_day start < M)%nat.
Proof. pose proof minutes_spec. pose proof M_val. unfold us_per_day, a_minute in *. lia. Qed.

Theorem climate_run : forall n,
  bind (make_climate rad clr temps c0 start a_minute) (iterate n (climate_step rad clr temps)) =
  if month_index (date_at (later start n)) =? month_index (date_at start) then
    Ok (at_index (minutes_into_day start + n) (Z.of_nat (minutes_into_day start + n)))
  else Err StopIteration.
Proof.
  intro n. unfold make_climate. rewrite make_irradiance_eq. cbn [bind].
  rewrite (refill _ 0%nat) by reflexivity. cbn [bind irradiance temperature].
  pose proof (pop_at 0 0 0%Q 0%Q ltac:(pose proof M_val; lia)) as Q. cbn [skipn] in Q. rewrite Q. cbn [bind].
  rewrite init_steps. fold base.
  assert (E : mkT base a_minute 0 (climate_at 0 0) = at_index 0 0).
  { unfold at_index, state_at. rewrite Nat.div_0_l, Nat.mod_0_l by (unfold minutes_per_day; lia). f_equal. unfold later. lia. }
  rewrite E, iterate_index. cbn [Nat.add Z.add].
  pose proof (base_start 0) as B0. rewrite Nat.add_0_r in B0. rewrite B0.
  assert (S0 : later start 0 = start) by (unfold later; lia). rewrite S0.
  assert (D : date_at start = date_at (later base 0)).
  { unfold date_at. rewrite index_day. rewrite Nat.div_0_l by (unfold minutes_per_day; lia). f_equal. lia. }
  rewrite D at 1. rewrite Z.eqb_refl. cbn [bind]. rewrite iterate_index, base_start, B0, S0.
  destruct (_ =? _); [|reflexivity]. f_equal. f_equal. lia.
Qed.

End Sun.
