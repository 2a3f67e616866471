(** * Proofs about recorded climates. *)

From Coq Require Import List ZArith QArith Bool Arith Lia Lqa Field ZifyBool ZifyNat ZifyN.
From Verif Require Import Prelude PreludeFacts SpecBase SpecBaseFacts Time_Model Time_Spec Time_Proofs Loader_Model Loader_Spec Loader_FileProofs Weather_Model Weather_Spec.
Import ListNotations.
Local Open Scope Z_scope.
Ltac Zify.zify_post_hook ::= Z.div_mod_to_equations.

(** ** RealClimate *)

Definition real_state (l : list (Z * (Q * Q))) (j : nat) (v : Q * Q) : real := mkReal (map snd (skipn (S j) l)) (fst v) (snd v).

Lemma real_pop_at : forall l j i t, real_pop (mkReal (map snd (skipn j l)) i t) =
  match nth_error l j with Some r => Ok (real_state l j (snd r)) | None => Err StopIteration end.
Proof.
  induction l as [|[z [a b]] l IH]; intros [|j] i t; try reflexivity.
  cbn [skipn nth_error]. rewrite IH. reflexivity.
Qed.

Lemma real_iterate : forall n l j s v, user s = real_state l j v -> nth_error l j <> None ->
  iterate n real_step s =
  match n with
  | O => Ok s
  | _ => match nth_error l (j + n) with
         | Some r => Ok (mkT (now s + Z.of_nat n * step_size s) (step_size s) (ticks s + Z.of_nat n) (real_state l (j + n) (snd r)))
         | None => Err StopIteration
         end
  end.
Proof.
  induction n as [|n IH]; intros l j s v U N; [reflexivity|]. cbn [iterate]. unfold real_step at 1, tstep. rewrite U.
  unfold real_state at 1. rewrite real_pop_at.
  destruct (nth_error l (S j)) as [r|] eqn:E; cbn [bind].
  - rewrite (IH l (S j) _ (snd r)) by (cbn [user]; congruence). destruct n.
    + replace (j + 1)%nat with (S j) by lia. rewrite E. f_equal. f_equal; lia.
    + replace (j + S (S n))%nat with (S j + S n)%nat by lia. destruct (nth_error l (S j + S n)); [|reflexivity].
      cbn [now step_size ticks]. f_equal. f_equal; lia.
  - apply nth_error_None in E. replace (nth_error l (j + S n)) with (@None (Z * (Q * Q))); [reflexivity|].
    symmetry. apply nth_error_None. lia.
Qed.

Lemma nth_error_skipn : forall A (l : list A) k i, nth_error (skipn k l) i = nth_error l (k + i).
Proof. induction l as [|a l IH]; intros [|k] i; cbn; auto. destruct i; reflexivity. Qed.

Lemma skipn_head : forall A (l : list A) k x, nth_error l k = Some x -> exists r, skipn k l = x :: r.
Proof. intros A l k x H. destruct (skipn k l) as [|y r] eqn:E; pose proof (nth_error_skipn A l k 0) as P; rewrite E, Nat.add_0_r in P; cbn in P; rewrite H in P; [discriminate|]. injection P as <-. eauto. Qed.

Theorem real_run : forall rows first step start lt la n, 0 < step -> regular rows first step ->
  nth_error rows (length rows - 1) = Some (lt, la) -> first <= start <= lt ->
  exists k, first + Z.of_nat k * step <= start < first + Z.of_nat k * step + step /\
  match nth_error rows (k + n) with
  | Some r => exists s, bind (make_real rows start step) (iterate n real_step) = Ok s /\ now s = start + Z.of_nat n * step /\
                r_irradiance (user s) = fst (snd r) /\ r_temperature (user s) = snd (snd r)
  | None => bind (make_real rows start step) (iterate n real_step) = Err StopIteration
  end.
Proof.
  intros rows first step start lt la n Hs R L F.
  destruct (slice_main _ rows first step start lt la Hs R L) as (_ & H2). destruct (H2 ltac:(lia)) as (k & t & a & E & N & B & _).
  specialize (B ltac:(lia)). assert (T : t = first + Z.of_nat k * step) by (apply (R k) in N; exact N).
  exists k. split; [lia|]. unfold make_real. rewrite E. cbn [bind].
  destruct (skipn_head _ _ _ _ N) as (rest & K). rewrite K.
  replace (t >? start) with false by lia.
  pose proof (real_pop_at (skipn k rows) 0 0%Q 0%Q) as P. cbn [skipn] in P. rewrite K in P. rewrite P. cbn [nth_error bind snd].
  unfold t_initialize, init_datetime. cbn [now step_size user]. replace (t >? start) with false by lia. cbn [bind].
  replace (step =? 0) with false by lia. rewrite Z.quot_small by lia. change (0 <? 0) with false. change (Z.to_nat 0) with 0%nat. cbv iota. cbn [iterate bind].
  rewrite Z.mod_small by lia. rewrite <- K.
  rewrite (real_iterate n (skipn k rows) 0 _ a) by (first [reflexivity|rewrite K; discriminate]).
  cbn [now step_size ticks]. destruct n as [|n].
  - rewrite Nat.add_0_r, N. eexists. split; [reflexivity|]. cbn. repeat split; lia.
  - rewrite nth_error_skipn. cbn [Nat.add].
    destruct (nth_error rows (k + S n)) as [r|]; [|reflexivity]. eexists. split; [reflexivity|]. cbn [now user real_state r_irradiance r_temperature]. repeat split. lia.
Qed.

(** ** RealInterpolatedClimate *)

Definition increasing (l : list (Z * Q)) : Prop := forall i x y x' y', nth_error l i = Some (x, y) -> nth_error l (S i) = Some (x', y') -> x < x'.

Lemma increasing_tl : forall p l, increasing (p :: l) -> increasing l.
Proof. intros p l H i x y x' y' A B. apply (H (S i) x y x' y'); auto. Qed.

Lemma increasing_head : forall l x y i x' y', increasing ((x, y) :: l) -> nth_error l i = Some (x', y') -> x < x'.
Proof.
  induction l as [|[a b] l IH]; intros x y i x' y' H N; [destruct i; discriminate|].
  assert (x < a) by (apply (H 0%nat x y a b); reflexivity).
  destruct i as [|i]; [injection N as <- <-; lia|].
  assert (a < x') by (apply (IH a b i x' y'); [apply (increasing_tl _ _ H)|exact N]). lia.
Qed.

Lemma line : forall x x0 x1 y0 y1, x0 < x1 ->
  (((y1 - y0) / inject_Z (x1 - x0)) * inject_Z (x - x0) + y0 == y0 + (y1 - y0) * (inject_Z (x - x0) / inject_Z (x1 - x0)))%Q.
Proof.
  intros x x0 x1 y0 y1 H. field. intro E. unfold Qeq in E. cbn in E. lia.
Qed.

Lemma segment_spec : forall l i x x0 y0 x1 y1, increasing l -> nth_error l i = Some (x0, y0) -> nth_error l (S i) = Some (x1, y1) -> x0 <= x <= x1 ->
  exists v, segment l x = Ok v /\ (v == y0 + (y1 - y0) * (inject_Z (x - x0) / inject_Z (x1 - x0)))%Q.
Proof.
  induction l as [|[a b] l IH]; intros i x x0 y0 x1 y1 H A B C; [destruct i; discriminate|].
  destruct l as [|[a' b'] l]; [destruct i; discriminate|].
  assert (a < a') by (apply (H 0%nat a b a' b'); reflexivity).
  cbn [segment]. destruct i as [|i].
  - injection A as <- <-. injection B as <- <-. replace (x <=? a') with true by lia. eexists. split; [reflexivity|]. apply line. lia.
  - destruct (Z.leb_spec x a') as [Q|Q].
    + destruct i as [|i].
      * injection A as <- <-. replace x with a' by lia. eexists. split; [reflexivity|]. rewrite line by lia.
        assert (a' < x1) by (apply (H 1%nat a' b' x1 y1); [reflexivity|exact B]).
        rewrite Z.sub_diag. change (inject_Z 0) with 0%Q.
        assert (~ (inject_Z (a' - a) == 0)%Q) by (intro E; unfold Qeq in E; cbn in E; lia).
        assert (~ (inject_Z (x1 - a') == 0)%Q) by (intro E; unfold Qeq in E; cbn in E; lia).
        field. split; assumption.
      * assert (a' < x0) by (apply (increasing_head l a' b' i x0 y0 (increasing_tl _ _ H)); exact A). lia.
    + apply (IH i); auto. apply (increasing_tl _ _ H).
Qed.

Lemma interp_spec : forall l i x x0 y0 x1 y1, increasing l -> nth_error l i = Some (x0, y0) -> nth_error l (S i) = Some (x1, y1) -> x0 <= x <= x1 ->
  exists v, interp1d l x = Ok v /\ (v == y0 + (y1 - y0) * (inject_Z (x - x0) / inject_Z (x1 - x0)))%Q.
Proof.
  intros l i x x0 y0 x1 y1 H A B C. unfold interp1d. destruct l as [|[a b] l]; [destruct i; discriminate|].
  assert (a <= x).
  { destruct i; [injection A as <- <-; lia|]. pose proof (increasing_head l a b i x0 y0 H A). lia. }
  replace (x <? a) with false by lia. destruct l as [|p l]; [destruct i; discriminate|].
  apply (segment_spec _ i); auto.
Qed.

Lemma interp_iterate : forall n s, 0 <= step_size s -> now s <= last_time (user s) ->
  iterate n interpolated_step s =
  if now s + Z.of_nat n * step_size s >? last_time (user s) then Err ValueError
  else Ok (mkT (now s + Z.of_nat n * step_size s) (step_size s) (ticks s + Z.of_nat n) (user s)).
Proof.
  induction n as [|n IH]; intros s P L; cbn [iterate].
  - replace (_ >? _) with false by lia. f_equal. apply mkT_eq; first [reflexivity|lia].
  - unfold interpolated_step at 1, tstep. cbn [bind now user].
    destruct (now s + step_size s >? last_time (user s)) eqn:E; cbn [bind].
    + replace (_ >? _) with true by nia. reflexivity.
    + rewrite IH by (cbn; lia). cbn [now step_size ticks user].
      replace (now s + step_size s + Z.of_nat n * step_size s) with (now s + Z.of_nat (S n) * step_size s) by lia.
      replace (ticks s + 1 + Z.of_nat n) with (ticks s + Z.of_nat (S n)) by lia. reflexivity.
Qed.

Lemma rev_last : forall A (l : list A) x, nth_error l (length l - 1) = Some x -> exists r, rev l = x :: r.
Proof.
  intros A l x H. destruct (rev l) as [|y r] eqn:E.
  - apply (f_equal (@rev A)) in E. rewrite rev_involutive in E. subst. discriminate.
  - exists r. apply (f_equal (@rev A)) in E. rewrite rev_involutive in E. subst l. cbn [rev] in H.
    rewrite app_length in H. cbn [length] in H. rewrite nth_error_app2 in H by lia.
    replace (length (rev r) + 1 - 1 - length (rev r))%nat with 0%nat in H by lia. injection H as ->. reflexivity.
Qed.

Lemma regular_points : forall rows f g k, 0 < g -> regular rows (f * a_minute) (g * a_minute) ->
  let m0 := f + Z.of_nat k * g in
  let l := map (fun r => (minute_of (fst r) - m0, snd r)) (skipn k rows) in
  (forall i t y, nth_error rows (k + i) = Some (t, y) -> nth_error l i = Some (Z.of_nat i * g, y)) /\ increasing l.
Proof.
  intros rows f g k Hg R m0 l.
  assert (A : forall i t y, nth_error rows (k + i) = Some (t, y) -> nth_error l i = Some (Z.of_nat i * g, y)).
  { intros i t y N. unfold l. rewrite nth_error_map, nth_error_skipn, N. cbn [option_map fst snd].
    rewrite (R _ _ _ N). unfold minute_of, us_per_minute, a_minute, m0. f_equal. f_equal.
    replace (f * (60 * 1000000) + Z.of_nat (k + i) * (g * (60 * 1000000))) with ((f + Z.of_nat (k + i) * g) * 60000000) by lia.
    rewrite Z.div_mul by lia. lia. }
  split; [exact A|]. intros i x y x' y' P Q.
  assert (B : forall i x y, nth_error l i = Some (x, y) -> x = Z.of_nat i * g).
  { intros j u v J. pose proof J as J'. unfold l in J. rewrite nth_error_map, nth_error_skipn in J.
    destruct (nth_error rows (k + j)) as [[t z]|] eqn:E; [|discriminate]. rewrite (A _ _ _ E) in J'. congruence. }
  rewrite (B _ _ _ P), (B _ _ _ Q). nia.
Qed.

Theorem interp_run : forall rows f g start lt la step n, 0 < g -> 0 < step ->
  regular rows (f * a_minute) (g * a_minute) -> nth_error rows (length rows - 1) = Some (lt, la) -> f * a_minute <= start < lt ->
  let t := start + Z.of_nat n * step in
  let run := bind (make_interpolated rows start (g * a_minute) step) (iterate n interpolated_step) in
  (lt < t -> run = Err ValueError) /\
  (t <= lt -> exists s, run = Ok s /\ now s = t /\
     forall i a ya b yb, nth_error rows i = Some (a, ya) -> nth_error rows (S i) = Some (b, yb) -> a <= t <= b ->
     exists v, interpolated_get s = Ok v /\ (v == ya + (yb - ya) * (inject_Z ((t - a) / a_minute) / inject_Z ((b - a) / a_minute)))%Q).
Proof.
  intros rows f g start lt la step n Hg Hs R L F t run.
  destruct (slice_main _ rows (f * a_minute) (g * a_minute) start lt la ltac:(unfold a_minute; lia) R L) as (_ & H2). destruct (H2 ltac:(lia)) as (k & t0 & a0 & E & N & B & _).
  specialize (B ltac:(lia)). pose proof (R _ _ _ N) as T. pose proof (R _ _ _ L) as TL.
  assert (KL : (k < length rows)%nat) by (apply nth_error_Some; congruence).
  assert (M0 : minute_of t0 = f + Z.of_nat k * g).
  { rewrite T. unfold minute_of, us_per_minute, a_minute.
    replace (f * (60 * 1000000) + Z.of_nat k * (g * (60 * 1000000))) with ((f + Z.of_nat k * g) * 60000000) by lia. apply Z.div_mul. lia. }
  assert (ML : minute_of lt * us_per_minute = lt).
  { rewrite TL. unfold minute_of, us_per_minute, a_minute.
    replace (f * (60 * 1000000) + Z.of_nat (length rows - 1) * (g * (60 * 1000000))) with ((f + Z.of_nat (length rows - 1) * g) * 60000000) by lia. rewrite Z.div_mul by lia. lia. }
  destruct (regular_points rows f g k Hg R) as (P & I). set (l := map _ _) in P, I.
  assert (U : run = if t >? lt then Err ValueError else Ok (mkT t step (Z.of_nat n) (mkInter l (f + Z.of_nat k * g) lt))).
  { unfold run, make_interpolated. rewrite E. cbn [bind].
    assert (LS : nth_error (skipn k rows) (length (skipn k rows) - 1) = Some (lt, la)).
    { rewrite nth_error_skipn, skipn_length. replace (k + (length rows - k - 1))%nat with (length rows - 1)%nat by lia. exact L. }
    destruct (rev_last _ _ _ LS) as (rr & RR). destruct (skipn_head _ _ _ _ N) as (rest & K).
    rewrite K in RR |- *. cbv beta iota. rewrite RR. rewrite <- K. cbv beta iota zeta. rewrite ML. rewrite M0.
    assert (TT : (f + Z.of_nat k * g) * us_per_minute = t0) by (rewrite T; unfold us_per_minute, a_minute; lia). rewrite TT.
    replace (t0 >? start) with false by lia. unfold t_initialize, init_datetime. cbn [now step_size user bind].
    replace (step =? 0) with false by lia. rewrite Z.sub_diag, Z.quot_0_l by lia. change (0 <? 0) with false. change (Z.to_nat 0) with 0%nat.
    cbv iota. cbn [iterate bind]. rewrite Z.mod_0_l by lia. rewrite interp_iterate by (cbn; lia). cbn [now step_size ticks user last_time].
    rewrite Z.add_0_r. fold t. unfold l. reflexivity. }
  rewrite U. split; intro Q.
  - replace (t >? lt) with true by lia. reflexivity.
  - replace (t >? lt) with false by lia. eexists. split; [reflexivity|]. split; [reflexivity|].
    intros i a ya b yb A C AB. unfold interpolated_get. cbn [now user points first_minute].
    pose proof (R _ _ _ A) as TA. pose proof (R _ _ _ C) as TB.
    assert (QT : minute_of t - (f + Z.of_nat k * g) = (t - a) / a_minute + (Z.of_nat i - Z.of_nat k) * g).
    { rewrite TA. unfold minute_of, us_per_minute, a_minute.
      replace (t - (f * (60 * 1000000) + Z.of_nat i * (g * (60 * 1000000)))) with (t + (- (f + Z.of_nat i * g)) * 60000000) by lia.
      change (60 * 1000000) with 60000000. rewrite Z.div_add by lia. lia. }
    assert (G : (b - a) / a_minute = g).
    { rewrite TA, TB. unfold a_minute. replace (_ - _) with (g * (60 * 1000000)) by lia. apply Z.div_mul. lia. }
    rewrite G, QT.
    assert (X : 0 <= (t - a) / a_minute <= g).
    { rewrite <- G. split; [apply Z.div_pos; unfold a_minute; lia|apply Z.div_le_mono; unfold a_minute; lia]. }
    destruct (le_lt_dec k i) as [KI|KI].
    + replace i with (k + (i - k))%nat in A, C by lia. replace (S (k + (i - k)))%nat with (k + S (i - k))%nat in C by lia.
      apply P in A. apply P in C.
      destruct (interp_spec l (i - k) ((t - a) / a_minute + (Z.of_nat i - Z.of_nat k) * g) _ _ _ _ I A C ltac:(nia)) as (v & V & W).
      exists v. split; [exact V|]. rewrite W.
      replace ((t - a) / a_minute + (Z.of_nat i - Z.of_nat k) * g - Z.of_nat (i - k) * g) with ((t - a) / a_minute) by nia.
      replace (Z.of_nat (S (i - k)) * g - Z.of_nat (i - k) * g) with g by lia. reflexivity.
    + assert (KI' : k = S i) by (unfold a_minute in *; nia).
      assert (TS : t = b) by (subst k; unfold a_minute in *; nia).
      assert (E1 : (t - a) / a_minute = g) by (rewrite TS; exact G). rewrite E1.
      replace (g + (Z.of_nat i - Z.of_nat k) * g) with 0 by nia.
      assert (LL : (S k < length rows)%nat) by (unfold a_minute in *; nia).
      destruct (lt_at _ rows (S k) LL) as ([c yc] & D). unfold at_ in D.
      rewrite <- KI' in C. rewrite <- (Nat.add_0_r k) in C. replace (S k) with (k + 1)%nat in D by lia. apply P in C. apply P in D.
      destruct (interp_spec l 0 0 _ _ _ _ I C D ltac:(nia)) as (v & V & W).
      exists v. split; [exact V|]. rewrite W. change (0 - Z.of_nat 0 * g) with 0. change (inject_Z 0) with 0%Q.
      assert (~ (inject_Z g == 0)%Q) by (intro Y; unfold Qeq in Y; cbn in Y; lia).
      assert (~ (inject_Z (Z.of_nat 1 * g - Z.of_nat 0 * g) == 0)%Q) by (intro Y; unfold Qeq in Y; cbn [inject_Z Qnum Qden] in Y; lia).
      field. split; assumption.
Qed.
