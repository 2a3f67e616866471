(** * Proofs about the example simulators. *)

From Coq Require Import List ZArith QArith Bool Lia Lqa Arith.
From Verif Require Import Prelude PreludeFacts SpecBase SpecBaseFacts Time_Model Time_Spec Time_Proofs Toy_Model Toy_Spec.
Import ListNotations.
Local Open Scope Q_scope.

Lemma at_map' : forall A B (f : A -> B) l i y, at_ (map f l) i y <-> exists x, at_ l i x /\ y = f x.
Proof.
  intros A B f l i y. unfold at_. rewrite nth_error_map. destruct (nth_error l i) as [x|]; cbn; split; try discriminate; [intros [= <-]; eauto|intros (z & [= <-] & ->); reflexivity|intros (z & E & _); discriminate].
Qed.

Lemma total_c : forall x l, total (x :: l) = x + total l.
Proof. reflexivity. Qed.

Lemma map2_at : forall A B C (f : A -> B -> C) xs ys i z, at_ (map2 f xs ys) i z <-> exists x y, at_ xs i x /\ at_ ys i y /\ z = f x y.
Proof.
  intros A B C f xs. induction xs as [|x xs IH]; intros ys i z.
  - cbn. unfold at_. destruct i; split; try discriminate; intros (x & y & E & _); discriminate.
  - destruct ys as [|y ys]; cbn [map2].
    + unfold at_. destruct i; split; try discriminate; intros (u & v & _ & E & _); discriminate.
    + destruct i as [|i]; unfold at_ in *; cbn [nth_error]; [|apply IH].
      split; [intros [= <-]; eauto|intros (u & v & [= <-] & [= <-] & ->); reflexivity].
Qed.

Lemma map2_length' : forall A B C (f : A -> B -> C) xs ys, length xs = length ys -> length (map2 f xs ys) = length xs.
Proof. intros A B C f xs. induction xs as [|x xs IH]; intros [|y ys] L; cbn in *; try congruence. f_equal. apply IH. congruence. Qed.

(** ** In place *)

Lemma in_place_ok : forall op u a, accepted (occ_type u) (length (occ u)) a ->
  exists l, in_place op u a = Ok (Toy (occ_type u) l (printed u)) /\ length l = length (occ u) /\
    forall h x, at_ (occ u) h x -> at_ l h (op x (share a h)).
Proof.
  intros op u a [T S]. unfold in_place.
  assert (E : forall r : result toy, match occ_type u, dtype_of a with DInt, DFloat => Err TypeError | _, _ => r end = r).
  { intro r. destruct (occ_type u); [rewrite T by reflexivity|]; reflexivity. }
  rewrite E. destruct a as [d v|d vs].
  - exists (map (fun x => op x v) (occ u)). split; [reflexivity|]. split; [apply map_length|]. intros h x H. apply at_map'. eauto.
  - destruct (Nat.eqb_spec (length vs) (length (occ u))) as [L|L].
    + exists (map2 op (occ u) vs). split; [reflexivity|]. split; [apply map2_length'; auto|]. intros h x H. apply map2_at. exists x.
      destruct (lt_at _ vs h) as [y Y]; [rewrite L; eapply at_lt; eauto|]. exists y. split; auto. split; auto. f_equal. unfold share.
      destruct vs as [|v [|w vs]].
      * destruct h; discriminate.
      * destruct h as [|h]; [injection Y as <-; reflexivity|]. destruct h; discriminate.
      * symmetry. apply nth_error_nth with (d := 0) in Y. auto.
    + destruct S as [S|S]; [congruence|]. destruct vs as [|v [|w vs]]; try discriminate.
      exists (map (fun x => op x v) (occ u)). split; [reflexivity|]. split; [apply map_length|]. intros h x H. apply at_map'. eauto.
Qed.

Lemma in_place_bad : forall op u a, ~ accepted (occ_type u) (length (occ u)) a ->
  in_place op u a = Err (match occ_type u, dtype_of a with DInt, DFloat => TypeError | _, _ => ValueError end).
Proof.
  intros op u a N. unfold in_place. unfold accepted in N.
  assert (G : forall vs d, a = Array d vs -> (occ_type u = DInt -> dtype_of a = DInt) -> length vs <> length (occ u) /\ length vs <> 1%nat).
  { intros vs d -> T. split; intro L; apply N; split; auto. }
  assert (K : (occ_type u = DInt -> dtype_of a = DInt) ->
    match a with Scalar _ v => Ok (Toy (occ_type u) (map (fun x => op x v) (occ u)) (printed u))
    | Array _ vs => if (length vs =? length (occ u))%nat then Ok (Toy (occ_type u) (map2 op (occ u) vs) (printed u))
       else match vs with [v] => Ok (Toy (occ_type u) (map (fun x => op x v) (occ u)) (printed u)) | _ => Err ValueError end end = Err ValueError).
  { intro T. destruct a as [d v|d vs]; [exfalso; apply N; auto|]. destruct (G vs d eq_refl T) as [L1 L2]. apply Nat.eqb_neq in L1. rewrite L1. destruct vs as [|v [|w vs]]; auto. cbn in L2. congruence. }
  destruct (occ_type u) eqn:O; destruct (dtype_of a) eqn:D; auto; apply K; intros; congruence.
Qed.

Lemma move_ok : forall u i, accepted (occ_type u) (length (occ u)) (fst i) -> accepted (occ_type u) (length (occ u)) (snd i) ->
  exists l, move u (fst i) (snd i) = (Toy (occ_type u) l (printed u), None) /\ length l = length (occ u) /\
    forall h x, at_ (occ u) h x -> at_ l h (x + share (fst i) h - share (snd i) h).
Proof.
  intros u [a b] A B. cbn [fst snd] in *. unfold move. destruct (in_place_ok Qplus u a A) as (l1 & E1 & L1 & H1). rewrite E1.
  destruct (in_place_ok Qminus (Toy (occ_type u) l1 (printed u)) b) as (l2 & E2 & L2 & H2); [cbn; rewrite L1; exact B|]. rewrite E2. cbn in *.
  exists l2. split; auto. split; [congruence|]. intros h x H. apply H2. apply H1. exact H.
Qed.

(** ** Runs *)

Lemma example_counts : forall ins s, Forall (fun i => accepted (occ_type (e_user s)) (length (occ (e_user s))) (fst i) /\ accepted (occ_type (e_user s)) (length (occ (e_user s))) (snd i)) ins ->
  exists s', example_run s ins = (s', None) /\ e_ticks s' = (e_ticks s + Z.of_nat (length ins))%Z /\ occ_type (e_user s') = occ_type (e_user s) /\
    length (occ (e_user s')) = length (occ (e_user s)) /\
    forall h x, at_ (occ (e_user s)) h x -> exists y, at_ (occ (e_user s')) h y /\ y == x + arrived ins h - departed ins h.
Proof.
  induction ins as [|i ins IH]; intros s F.
  - exists s. cbn. split; auto. split; [lia|]. split; auto. split; auto. intros h x H. exists x. split; auto. unfold arrived, departed. cbn. ring.
  - inversion F as [|? ? [A B] F']; subst. cbn [example_run]. unfold example_step. destruct (move_ok (e_user s) i A B) as (l & E & L & H). rewrite E.
    destruct (IH (ESim (e_ticks s + 1) (Toy (occ_type (e_user s)) l (printed (e_user s))))) as (s' & R & T & D & N & K); [cbn; rewrite L; exact F'|].
    exists s'. split; auto. cbn [e_user e_ticks occ occ_type printed length] in *. split; [lia|]. split; auto. split; [congruence|]. intros h x X. destruct (K h _ (H h x X)) as (y & Y & E'). exists y. split; auto.
    rewrite E'. unfold arrived, departed. cbn [map]. rewrite !total_c. ring.
Qed.

(** The time aware one *)

Lemma moved_ok : forall u i, accepted (occ_type u) (length (occ u)) (fst i) -> accepted (occ_type u) (length (occ u)) (snd i) ->
  exists l, moved i u = Ok (Toy (occ_type u) l (printed u)) /\ length l = length (occ u) /\ forall h x, at_ (occ u) h x -> at_ l h (x + share (fst i) h - share (snd i) h).
Proof. intros u i A B. destruct (move_ok u i A B) as (l & E & L & H). exists l. unfold moved. rewrite E. auto. Qed.

Definition fires (t d : Z) : bool := ((hour_at (t + d) =? 4) && negb (hour_at t =? 4))%Z.

Lemma aware_step_ok : forall s i, accepted (occ_type (user s)) (length (occ (user s))) (fst i) -> accepted (occ_type (user s)) (length (occ (user s))) (snd i) ->
  exists l, aware_step i s = Ok (mkT (now s + step_size s) (step_size s) (ticks s + 1)
      (Toy (occ_type (user s)) l (printed (user s) ++ if fires (now s) (step_size s) then [percentage (occ (user s))] else []))) /\
    length l = length (occ (user s)) /\ forall h x, at_ (occ (user s)) h x -> at_ l h (x + share (fst i) h - share (snd i) h).
Proof.
  intros s i A B. unfold aware_step, decorated. fold (fires (now s) (step_size s)). destruct (fires (now s) (step_size s)).
  - unfold call_back, print_empty. cbn [bind user]. unfold tstep. cbn [user now step_size ticks].
    destruct (moved_ok (Toy (occ_type (user s)) (occ (user s)) (printed (user s) ++ [percentage (occ (user s))])) i A B) as (l & E & L & H). rewrite E. cbn [bind]. exists l. auto.
  - cbn [bind]. unfold tstep. destruct (moved_ok (user s) i A B) as (l & E & L & H). rewrite E. cbn [bind]. rewrite app_nil_r. exists l. auto.
Qed.

Lemma aware_counts : forall ins s, Forall (fun i => accepted (occ_type (user s)) (length (occ (user s))) (fst i) /\ accepted (occ_type (user s)) (length (occ (user s))) (snd i)) ins ->
  exists s', aware_run s ins = Ok s' /\ now s' = (now s + Z.of_nat (length ins) * step_size s)%Z /\ step_size s' = step_size s /\ ticks s' = (ticks s + Z.of_nat (length ins))%Z /\
    occ_type (user s') = occ_type (user s) /\ length (occ (user s')) = length (occ (user s)) /\
    (forall h x, at_ (occ (user s)) h x -> exists y, at_ (occ (user s')) h y /\ y == x + arrived ins h - departed ins h).
Proof.
  induction ins as [|i ins IH]; intros s F.
  - exists s. cbn. split; auto. split; [lia|]. split; auto. split; [lia|]. split; auto. split; auto. intros h x H. exists x. split; auto. unfold arrived, departed. cbn. ring.
  - inversion F as [|? ? [A B] F']; subst. cbn [aware_run]. destruct (aware_step_ok s i A B) as (l & E & L & H). rewrite E. cbn [bind].
    match goal with |- context [aware_run ?s1 ins] => destruct (IH s1) as (s' & R & T1 & T2 & T3 & D & N & K); [cbn; rewrite L; exact F'|] end.
    exists s'. cbn [now step_size ticks user occ occ_type printed length] in *. split; auto. split; [rewrite T1; lia|]. split; auto. split; [lia|]. split; auto. split; [congruence|].
    intros h x X. destruct (K h _ (H h x X)) as (y & Y & E'). exists y. split; auto.
    rewrite E'. unfold arrived, departed. cbn [map]. rewrite !total_c. ring.
Qed.

Lemma fires_crosses : forall t d, (0 < d <= us_per_hour)%Z -> (fires t d = true <-> crosses (4 * us_per_hour) t (t + d)).
Proof. exact hour4_iff. Qed.

Lemma aware_reports : forall ins s s', (0 < step_size s <= us_per_hour)%Z ->
  Forall (fun i => accepted (occ_type (user s)) (length (occ (user s))) (fst i) /\ accepted (occ_type (user s)) (length (occ (user s))) (snd i)) ins ->
  aware_run s ins = Ok s' ->
  exists new, printed (user s') = printed (user s) ++ new /\ Z.of_nat (length new) = crossings (4 * us_per_hour) (now s) (now s').
Proof.
  induction ins as [|i ins IH]; intros s s' D F R.
  - cbn in R. injection R as <-. exists []. rewrite app_nil_r. split; auto. unfold crossings. cbn. lia.
  - inversion F as [|? ? [A B] F']; subst. cbn [aware_run] in R. destruct (aware_step_ok s i A B) as (l & E & L & H). rewrite E in R. cbn [bind] in R.
    match type of R with aware_run ?s1 ins = _ => destruct (IH s1 s') as (new & P & C); [exact D|cbn; rewrite L; exact F'|exact R|] end.
    cbn [now user printed step_size] in *. rewrite P, <- app_assoc. eexists. split; [reflexivity|]. rewrite app_length, Nat2Z.inj_add, C.
    pose proof (fires_crosses (now s) (step_size s) D) as Q. pose proof (crossings_step (now s) (step_size s) ltac:(unfold us_per_hour, us_per_day in *; lia)) as O.
    rewrite crosses_iff in Q by (unfold us_per_hour, us_per_day in *; lia). unfold four in O. unfold crossings in *.
    destruct (fires (now s) (step_size s)); cbn [length].
    + assert (X := proj1 Q eq_refl). lia.
    + destruct O as [O|O]; [lia|]. assert (X : false = true) by (apply Q; lia). discriminate.
Qed.

(** ** Construction *)

Definition quiet (n : nat) : amount * amount := (Array DFloat (repeat 0 n), Array DFloat (repeat 0 n)).

Lemma quiet_accepted : forall n d, d = DFloat -> accepted d n (fst (quiet n)) /\ accepted d n (snd (quiet n)).
Proof. intros n d ->. unfold accepted, quiet. cbn. rewrite repeat_length. repeat split; auto; discriminate. Qed.

Lemma quiet_share : forall n h, share (fst (quiet n)) h = 0.
Proof.
  intros n h. unfold quiet, share. cbn [fst]. destruct (repeat 0 n) as [|v [|w l]] eqn:E.
  - destruct h; reflexivity.
  - destruct n as [|[|n]]; try discriminate. injection E as <-. reflexivity.
  - rewrite <- E. destruct (Nat.lt_ge_cases h n) as [L|L].
    + apply nth_error_nth. rewrite nth_error_repeat by exact L. reflexivity.
    + apply nth_overflow. rewrite repeat_length. exact L.
Qed.

Lemma no_fire : forall d a b, (d mod us_per_day = 4 * us_per_hour)%Z -> (d <= a)%Z -> (0 < b)%Z -> (a + b < d + us_per_day)%Z -> fires a b = false.
Proof.
  intros d a b D A B C. unfold fires, hour_at, time_of_day, us_per_hour, us_per_day in *. destruct (Z.eqb_spec ((a + b) mod 86400000000 / 3600000000) 4) as [E|E]; [|reflexivity].
  assert (Q : (a mod 86400000000 / 3600000000 = 4)%Z). { Ltac Zify.zify_post_hook ::= Z.div_mod_to_equations. lia. } rewrite Q. reflexivity.
Qed.

Lemma quiet_run : forall k d s, (d mod us_per_day = 4 * us_per_hour)%Z -> (d <= now s)%Z -> (0 < step_size s)%Z -> (now s + Z.of_nat k * step_size s < d + us_per_day)%Z ->
  occ_type (user s) = DFloat ->
  exists s', iterate k (aware_step (quiet (length (occ (user s))))) s = Ok s' /\ now s' = (now s + Z.of_nat k * step_size s)%Z /\ step_size s' = step_size s /\ ticks s' = (ticks s + Z.of_nat k)%Z /\
    occ_type (user s') = DFloat /\ length (occ (user s')) = length (occ (user s)) /\ printed (user s') = printed (user s) /\
    forall h x, at_ (occ (user s)) h x -> exists y, at_ (occ (user s')) h y /\ y == x.
Proof.
  induction k as [|k IH]; intros d s D A B C O.
  - exists s. cbn. split; auto. split; [lia|]. split; auto. split; [lia|]. split; auto. split; auto. split; auto. intros h x H. exists x. split; auto. reflexivity.
  - cbn [iterate]. set (n := length (occ (user s))) in *. destruct (quiet_accepted n (occ_type (user s)) O) as [Q1 Q2].
    destruct (aware_step_ok s (quiet n) Q1 Q2) as (l & E & L & H). rewrite E. cbn [bind].
    rewrite (no_fire d (now s) (step_size s) D A B) by nia. rewrite app_nil_r.
    match goal with |- context [iterate k _ ?s1] => destruct (IH d s1 D) as (s' & R & T1 & T2 & T3 & U1 & U2 & U3 & U4) end; cbn [now step_size ticks user occ occ_type printed] in *; try lia; auto.
    rewrite L in R. fold n in R. exists s'. split; [exact R|]. split; [lia|]. split; auto. split; [lia|]. split; auto. split; [rewrite U2; exact L|]. split; auto.
    intros h x X. destruct (U4 h _ (H h x X)) as (y & Y & Ey). exists y. split; auto. rewrite Ey. replace (snd (quiet n)) with (fst (quiet n)) by reflexivity. rewrite quiet_share. ring.
Qed.

Lemma aware_all_inside : forall n m start d draws, (0 < n)%Z -> (0 < d)%Z ->
  exists s, aware_init n m start d draws AllInsideAt4am = Ok s /\ now s = start /\ step_size s = d /\ printed (user s) = [] /\ occ_type (user s) = DFloat /\
    length (occ (user s)) = Z.to_nat n /\ (forall h x, at_ (occ (user s)) h x -> x == inject_Z m) /\
    exists four_am, latest_occurrence (4 * us_per_hour) start four_am /\ whole_steps d four_am start (ticks s).
Proof.
  intros n m start d draws N D. unfold aware_init. destruct (Z.leb_spec n 0); [lia|]. set (k := Z.to_nat n).
  set (u := Toy DFloat (repeat (inject_Z m * 1) k) []). unfold t_initialize. cbn [now step_size user ticks].
  set (start4 := (start / us_per_day * us_per_day + 4 * us_per_hour)%Z). set (f := (if start4 >? start then start4 - us_per_day else start4)%Z).
  assert (F : (f <= start /\ start < f + us_per_day /\ f mod us_per_day = 4 * us_per_hour)%Z).
  { unfold f, start4, us_per_day, us_per_hour. pose proof (Z.div_mod start 86400000000 ltac:(lia)). pose proof (Z.mod_pos_bound start 86400000000 ltac:(lia)).
    destruct (Z.gtb_spec (start / 86400000000 * 86400000000 + 4 * 3600000000) start); lia. }
  replace (init_datetime (AtTime (4 * us_per_hour)%Z) start) with (Ok f) by reflexivity. cbn [bind]. destruct (Z.eqb_spec d 0); [lia|].
  assert (Q0 : (0 <= Z.quot (start - f) d)%Z) by (apply Z.quot_pos; lia). destruct (Z.ltb_spec (Z.quot (start - f) d) 0); [lia|].
  rewrite Z.quot_div_nonneg in * by lia. pose proof (Z.div_mod (start - f) d ltac:(lia)) as DM. pose proof (Z.mod_pos_bound (start - f) d ltac:(lia)) as MB.
  change (Array DFloat (repeat 0 k), Array DFloat (repeat 0 k)) with (quiet k). assert (Lu : length (occ u) = k) by apply repeat_length.
  destruct (quiet_run (Z.to_nat ((start - f) / d)) f (mkT (f + (start - f) mod d) d 0 u)) as (s' & R & T1 & T2 & T3 & U1 & U2 & U3 & U4);
    cbn [now step_size user ticks] in *; try tauto; try lia; try (rewrite Z2Nat.id by lia; nia).
  rewrite Lu in R. exists s'. split; [exact R|]. split; [rewrite T1, Z2Nat.id by lia; lia|]. split; [exact T2|]. split; [exact U3|]. split; [exact U1|]. split; [congruence|]. split.
  - intros h x X. assert (Hh : (h < k)%nat) by (rewrite <- Lu, <- U2; eapply at_lt; eauto).
    destruct (U4 h (inject_Z m * 1)) as (y & Y & Ey); [apply nth_error_repeat; exact Hh|]. rewrite (at_fun _ _ _ _ _ X Y), Ey. ring.
  - exists f. split.
    + split; [tauto|]. split; [tauto|]. intros d' M' L'. unfold us_per_day, us_per_hour in *. lia.
    + unfold whole_steps. rewrite T3, Z2Nat.id by lia. nia.
Qed.
