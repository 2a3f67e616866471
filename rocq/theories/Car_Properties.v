(** * Properties of the electric cars (C43, C44, C72-C74, C118). *)

From Coq Require Import String List ZArith QArith Qround Bool Arith Lia Lqa.
From Verif Require Import Prelude PreludeFacts Sampling_Model SpecBase SpecBaseFacts Appliance_Model Appliance_Spec.
From Verif Require Import Matrix_Proofs Appliance_Proofs Car_Model Car_Spec Car_Proofs.
Import ListNotations.

Open Scope Q_scope.

(** Two households: two cars and one car.  Per step of trip the cars need two
    charging steps. *)
Definition fleet0 := new_csim [(0%nat, 20, 100%Z); (0%nat, 20, 100%Z); (1%nat, 20, 100%Z)] [2300; 2300] (Some [0; 0]%nat) [2; 1]%Z [0; 0]%Z [0; 0]%Z.
Definition go (o a w : list Z) := CIn [1 # 2; 1 # 2] [0; 0] o a w.
(** The first step of the day is quiet; then one person leaves each household,
    then they come back. *)
Definition quiet := go [2; 1]%Z [0; 0]%Z [0; 0]%Z.
Definition leave := go [1; 0]%Z [1; 1]%Z [0; 0]%Z.
Definition back := go [2; 1]%Z [0; 0]%Z [0; 0]%Z.
Definition show (r : result csim) := match r with Ok s => map (fun c => (c_use c, c_chg c, c_left c, c_used c)) (k_cars s) | Err _ => [] end.
Definition watts (r : result csim) := match r with Ok s => map Qred (car_consumption s) | Err _ => [] end.

(** ** C43: charging *)

(** Whatever happens, a car in use is not charging and a charging car still has
    at least one step to charge. *)
Theorem C43_invariant : forall n cars station strategy occ hoh hwh l s,
  fleet n (new_csim cars station strategy occ hoh hwh) -> (forall i, In i l -> uniform n i) ->
  car_run (new_csim cars station strategy occ hoh hwh) l = Ok s ->
  forall k c, at_ (k_cars s) k c -> (c_use c = true -> c_chg c = false) /\ (c_chg c = true -> (1 <= c_left c)%Z).
Proof.
  intros n cars station strategy occ hoh hwh l s Hf Hu H.
  exact (proj2 (run_inv n l _ s Hf Hu (new_safe _ _ _ _ _ _) H)).
Qed.

(** The charging demand of a household is its station power times the number of
    its charging cars. *)
Theorem C43_demand : forall n s h, fleet n s -> (h < n)%nat -> exists p v,
  at_ (k_station s) h p /\ at_ (car_consumption s) h v /\ v == inject_Z (Z.of_nat (cars_of s h c_chg)) * p.
Proof. exact consumption_car. Qed.

(** Steps run without error as long as at most five persons leave at once and
    no station has zero power. *)
Theorem C43_no_error : forall n s i, fleet n s -> uniform n i ->
  length (i_occ i) = n -> length (i_hoh i) = n -> length (i_hwh i) = n ->
  (exists sl, k_strategy s = Some sl) -> (forall h p, at_ (k_station s) h p -> ~ p == 0) ->
  (forall h o o', at_ (k_occ s) h o -> at_ (i_occ i) h o' -> (o - o' <= 5)%Z) ->
  exists s', car_do s i = Ok s' /\ fleet n s'.
Proof.
  intros n s i Hf Hu L1 L2 L3 Hs Hp Ho. destruct (car_step_total n s i Hf Hu L1 L2 L3 Hs Hp Ho) as [s' E].
  exists s'. split; [exact E|]. eapply fleet_step; eauto.
Qed.

(** What starts charging: cars that arrive (strategy 0), cars at home whose
    remaining time equals the time left before their timer (strategy 1);
    leaving interrupts it. *)
Theorem C43_start : forall n s i s' k c, fleet n s -> uniform n i -> car_do s i = Ok s' -> at_ (k_cars s) k c ->
  exists c' sl st, at_ (k_cars s') k c' /\ k_strategy s = Some sl /\ at_ sl (c_hh c) st /\
    (c_chg c' = true -> ~ leaves s i k c /\
       (c_chg c = true \/ (arrives s i k c /\ st = 0%nat) \/
        (st = 1%nat /\ home s i k c /\ until_timer (c_timer c) (Z.of_nat (S (k_time s) mod 144)) (c_left c' + 1)))) /\
    (leaves s i k c -> c_chg c' = false).
Proof.
  intros n s i s' k c Hf Hu H Hc. destruct (car_step_full n s i s' Hf Hu H) as (_ & _ & _ & _ & _ & _ & _ & _ & _ & _ & A).
  destruct (A k c Hc) as (a & l & b & t & st & p & X & Xa & Xl & Xp & Xt & (sl & Xs & Xst) & Xb).
  destruct (moved_fields a l b t c) as (_ & M1 & _ & M2 & M3).
  exists (moved a l b t c), sl, st. split; [exact X|]. split; [exact Xs|]. split; [exact Xst|]. split.
  - intro Hchg. pose proof Hchg as Hchg'. rewrite M3 in Hchg. apply andb_true_iff in Hchg. destruct Hchg as [Hchg _].
    rewrite Hchg in M2. apply andb_true_iff in Hchg.
    destruct Hchg as [Hl Hb]. apply negb_true_iff in Hl. split; [intro Y; apply Xl in Y; congruence|].
    apply orb_true_iff in Hb. destruct Hb as [Hb|Hb]; [|left; exact Hb]. right. subst b.
    destruct (proj1 Xb eq_refl) as [[Y1 Y2]|(Y1 & Y2 & Y3)].
    + left. split; [now apply Xa|exact Y2].
    + right. split; [exact Y1|]. split; [destruct Y2 as [Y2|Y2]; [left; exact Y2|right; now apply Xa]|]. rewrite M2.
      match goal with |- until_timer _ _ ?x => replace x with (steps_till_charged (c_timer c) (Z.of_nat (S (k_time s) mod 144))) by lia end.
      apply until_timer_ok.
  - intro Y. apply Xl in Y. rewrite M3, Y. reflexivity.
Qed.

(** Conversely: an arriving car (strategy 0), a car that waits for its timer
    (strategy 1) and a car that charges are charging after the step unless the
    car leaves, as long as a step of charging remains. *)
Theorem C43_charges : forall n s i s' k c c' sl st, fleet n s -> uniform n i -> car_do s i = Ok s' -> at_ (k_cars s) k c ->
  at_ (k_cars s') k c' -> k_strategy s = Some sl -> at_ sl (c_hh c) st -> ~ leaves s i k c -> (1 <= c_left c')%Z ->
  (c_chg c = true -> c_chg c' = true) /\
  (arrives s i k c -> st = 0%nat -> c_chg c' = true) /\
  (st = 1%nat -> c_use c = false -> until_timer (c_timer c) (Z.of_nat (S (k_time s) mod 144)) (c_left c) -> c_chg c' = true).
Proof.
  intros n s i s' k c c' sl st Hf Hu H Hc Hc' Hsl Hst Nl Left. destruct (car_step_full n s i s' Hf Hu H) as (_ & _ & _ & _ & _ & _ & _ & _ & _ & _ & A).
  destruct (A k c Hc) as (a & l & b & t & st' & p & X & Xa & Xl & Xp & Xt & (sl' & Xs & Xst) & Xb).
  assert (sl' = sl) by congruence. subst sl'. rewrite (at_fun _ _ _ _ _ Xst Hst) in Xb. clear Xst st'.
  rewrite (at_fun _ _ _ _ _ Hc' X) in Left |- *.
  destruct (moved_fields a l b t c) as (_ & _ & _ & _ & M3). rewrite M3. apply Z.leb_le in Left. rewrite Left, andb_true_r.
  assert (l = false) by (destruct l; [exfalso; apply Nl, Xl; reflexivity|reflexivity]). subst l. cbn [negb andb].
  split; [intros ->; apply orb_true_r|]. split.
  - intros Ar St. apply Xa in Ar. rewrite (proj2 Xb); [reflexivity|]. left. auto.
  - intros St Us Un. assert (a = false). { destruct a; [|reflexivity]. destruct (proj1 Xa eq_refl) as (_ & Y & _). congruence. } subst a.
    rewrite (proj2 Xb); [reflexivity|]. right. split; [exact St|]. split; [left; exact Us|]. apply until_timer_fun. exact Un.
Qed.

(** A car with a timer: two steps remain to charge and the timer shows in two
    steps; the next morning when the timer is earlier in the day. *)
Example C43_timer_example :
  let s t := CSim [Car 0 20 t false 2 0 false] [2300] (Some [1%nat]) [1]%Z [0]%Z [0]%Z 9 in
  let stay := CIn [1 # 2] [0] [1]%Z [0]%Z [0]%Z in
  show (car_do (s 12%Z) stay) = [(false, true, 1%Z, 0%Z)] /\ show (car_do (s 13%Z) stay) = [(false, false, 2%Z, 0%Z)] /\
  until_timer 12 10 2 /\ until_timer 3 10 137 /\ until_timer 10 10 144.
Proof. split; [vm_compute; reflexivity|]. split; [vm_compute; reflexivity|]. unfold until_timer. repeat split; intros; lia. Qed.

Example C43_example :
  show (car_run fleet0 [quiet; leave; back]) = [(false, true, 1%Z, 0%Z); (false, false, 0%Z, 0%Z); (false, true, 1%Z, 0%Z)] /\
  watts (car_run fleet0 [quiet; leave; back]) = [2300; 2300] /\
  show (car_run fleet0 [quiet; leave; back; leave]) = [(true, false, 1%Z, 0%Z); (false, false, 0%Z, 0%Z); (true, false, 1%Z, 0%Z)] /\
  watts (car_run fleet0 [quiet; leave; back; leave]) = [0; 0] /\
  car_run fleet0 [go [2]%Z [0; 0]%Z [0; 0]%Z] = Err ValueError.
Proof. conj_vm. Qed.

(** ** C44: movements *)

(** The cars in use after a step: those that leave and those that were away
    and do not arrive. *)
Theorem C44_exact : forall n s i s' k c, fleet n s -> uniform n i -> car_do s i = Ok s' -> at_ (k_cars s) k c ->
  exists c', at_ (k_cars s') k c' /\ same_car c c' /\
    (c_use c' = true <-> leaves s i k c \/ (c_use c = true /\ ~ arrives s i k c)).
Proof.
  intros n s i s' k c Hf Hu H Hc. destruct (car_step_full n s i s' Hf Hu H) as (_ & _ & _ & _ & _ & _ & _ & _ & _ & _ & A).
  destruct (A k c Hc) as (a & l & b & t & st & p & X & Xa & Xl & _). destruct (moved_fields a l b t c) as (M0 & M1 & _).
  exists (moved a l b t c). split; [exact X|]. split; [exact M0|]. rewrite M1, orb_true_iff, andb_true_iff, negb_true_iff, Xl, <- Xa.
  destruct a; intuition congruence.
Qed.

(** The fleet is the same. *)
Theorem C44_conserved : forall n s i s', fleet n s -> uniform n i -> car_do s i = Ok s' ->
  length (k_cars s') = length (k_cars s) /\ k_station s' = k_station s /\ k_strategy s' = k_strategy s /\
  k_time s' = S (k_time s) /\ fleet n s'.
Proof.
  intros n s i s' Hf Hu H. destruct (car_step_full n s i s' Hf Hu H) as (L & S1 & S2 & S3 & _).
  split; [exact L|]. split; [exact S1|]. split; [exact S2|]. split; [exact S3|]. eapply fleet_step; eauto.
Qed.

(** At most one car of a household comes back, at most one goes away. *)
Theorem C44_one_at_a_time : forall n s i s' k1 k2 c1 c2 d1 d2, fleet n s -> uniform n i -> car_do s i = Ok s' ->
  at_ (k_cars s) k1 c1 -> at_ (k_cars s) k2 c2 -> c_hh c1 = c_hh c2 -> at_ (k_cars s') k1 d1 -> at_ (k_cars s') k2 d2 ->
  (c_use c1 = true -> c_use d1 = false -> c_use c2 = true -> c_use d2 = false -> k1 = k2) /\
  (c_use c1 = false -> c_use d1 = true -> c_use c2 = false -> c_use d2 = true -> k1 = k2).
Proof.
  intros n s i s' k1 k2 c1 c2 d1 d2 Hf Hu H H1 H2 Hh G1 G2.
  destruct (C44_exact n s i s' k1 c1 Hf Hu H H1) as (e1 & E1 & _ & A1). rewrite (at_fun _ _ _ _ _ G1 E1). clear G1.
  destruct (C44_exact n s i s' k2 c2 Hf Hu H H2) as (e2 & E2 & _ & A2). rewrite (at_fun _ _ _ _ _ G2 E2). clear G2.
  destruct (car_step_full n s i s' Hf Hu H) as (_ & _ & _ & _ & _ & _ & _ & _ & _ & _ & A).
  destruct (A k1 c1 H1) as (a1 & l1 & b1 & t1 & st1 & p1 & X1 & Xa1 & Xl1 & _).
  destruct (A k2 c2 H2) as (a2 & l2 & b2 & t2 & st2 & p2 & X2 & Xa2 & Xl2 & _).
  rewrite (at_fun _ _ _ _ _ E1 X1), (at_fun _ _ _ _ _ E2 X2). destruct (moved_fields a1 l1 b1 t1 c1) as (_ & M1 & _).
  destruct (moved_fields a2 l2 b2 t2 c2) as (_ & M2 & _). rewrite M1, M2. split.
  - intros U1 D1 U2 D2. rewrite U1 in D1. rewrite U2 in D2. apply orb_false_iff in D1, D2. destruct D1 as [_ D1], D2 as [_ D2].
    cbn [andb] in *. apply negb_false_iff in D1, D2. apply Xa1 in D1. apply Xa2 in D2.
    destruct D1 as (_ & _ & _ & F1). destruct D2 as (_ & _ & _ & F2).
    destruct (lt_eq_lt_dec k1 k2) as [[L|L]|L]; [|exact L|].
    + pose proof (F2 k1 c1 L H1 Hh). congruence.
    + pose proof (F1 k2 c2 L H2 (eq_sym Hh)). congruence.
  - intros U1 D1 U2 D2. rewrite U1 in D1. rewrite U2 in D2. cbn [andb] in *. rewrite orb_false_r in D1, D2. apply Xl1 in D1. apply Xl2 in D2.
    destruct D1 as (_ & _ & _ & F1). destruct D2 as (_ & _ & _ & F2).
    destruct (lt_eq_lt_dec k1 k2) as [[L|L]|L]; [|exact L|].
    + exfalso. apply (F2 k1 c1 L H1 Hh). left. exact U1.
    + exfalso. apply (F1 k2 c2 L H2 (eq_sym Hh)). left. exact U2.
Qed.

(** Only with a reason: a car comes back when people return or when more cars
    are away than people are out, it goes away when people leave. *)
Theorem C44_reasons : forall n s i s' k c d, fleet n s -> uniform n i -> car_do s i = Ok s' ->
  at_ (k_cars s) k c -> at_ (k_cars s') k d ->
  (c_use c = true -> c_use d = false -> people_return s i (c_hh c) \/ car_left_over s i (c_hh c)) /\
  (c_use c = false -> c_use d = true -> departs s i (c_hh c)) /\
  (quiet_step s -> c_use d = c_use c).
Proof.
  intros n s i s' k c d Hf Hu H Hc Hd. destruct (C44_exact n s i s' k c Hf Hu H Hc) as (e & E & _ & A). rewrite (at_fun _ _ _ _ _ Hd E).
  destruct (car_step_full n s i s' Hf Hu H) as (_ & _ & _ & _ & _ & _ & _ & _ & _ & _ & B).
  destruct (B k c Hc) as (a & l & b & t & st & p & X & Xa & Xl & _). destruct (moved_fields a l b t c) as (_ & M1 & _).
  rewrite (at_fun _ _ _ _ _ E X), M1. split; [|split].
  - intros U D. rewrite U in D. apply orb_false_iff in D. destruct D as [_ D]. cbn [andb] in D. apply negb_false_iff in D.
    apply Xa in D. destruct D as (_ & _ & D & _). exact D.
  - intros U D. rewrite U in D. cbn [andb] in D. rewrite orb_false_r in D. apply Xl in D. destruct D as (_ & _ & D & _). exact D.
  - intro Q. assert (l = false). { destruct l; [|reflexivity]. destruct (proj1 Xl eq_refl) as [Y _]. contradiction. }
    assert (a = false). { destruct a; [|reflexivity]. destruct (proj1 Xa eq_refl) as [Y _]. contradiction. }
    subst. cbn [negb orb]. apply andb_true_r.
Qed.

(** A car that was away can leave in the same step: it comes back because more
    cars are away than people are out, and is then the first car at home when
    somebody leaves. *)
Theorem C44_turnaround_refuted : exists s i s' k c, fleet 1 s /\ uniform 1 i /\ car_do s i = Ok s' /\ at_ (k_cars s) k c /\
  c_use c = true /\ arrives s i k c /\ leaves s i k c.
Proof.
  exists (CSim [Car 0 20 100 true 0 3 false; Car 0 20 100 true 0 3 false] [2300] (Some [0%nat]) [3]%Z [0]%Z [2]%Z 20).
  exists (CIn [1 # 2] [0] [2]%Z [1]%Z [0]%Z). eexists. exists 0%nat. eexists.
  assert (A : car_left_over (CSim [Car 0 20 100 true 0 3 false; Car 0 20 100 true 0 3 false] [2300] (Some [0%nat]) [3]%Z [0]%Z [2]%Z 20)
    (CIn [1 # 2] [0] [2]%Z [1]%Z [0]%Z) 0).
  { exists 1%Z, 0%Z. repeat split. }
  split.
  { repeat split; try reflexivity.
    - intros [|[|k]] c Hc; [injection Hc as <-; simpl; lia|injection Hc as <-; simpl; lia|destruct k; discriminate].
    - intros st [= <-]. reflexivity. }
  split.
  { repeat split; simpl; intros; destruct h as [|h]; try (injection H as <-; lra); destruct h; discriminate. }
  split; [vm_compute; reflexivity|]. split; [reflexivity|]. split; [reflexivity|].
  assert (Ar : forall s, quiet_step s -> k_time s = 20%nat -> False) by (intros s H1 H2; unfold quiet_step in H1; rewrite H2 in H1; discriminate).
  match goal with |- arrives ?s ?i ?k ?c /\ _ => assert (B : arrives s i k c) end.
  { split; [intro H; exact (Ar _ H eq_refl)|]. split; [reflexivity|]. split; [right; exact A|]. intros; lia. }
  split; [exact B|]. split; [intro H; exact (Ar _ H eq_refl)|]. split; [right; exact B|]. split; [|intros; lia].
  exists 3%Z, 2%Z, 0%Z, 1%Z, 2%Z, 0%Z, 0, (62679598 # 100000000). repeat split; try reflexivity.
  left. split; [reflexivity|]. split; [discriminate|reflexivity].
Qed.

(** Number of cars away. *)
Theorem C44_used : forall n s h, fleet n s -> (h < n)%nat -> at_ (n_used_cars s) h (cars_of s h c_use).
Proof. exact used_cars. Qed.

Example C44_example :
  show (car_run fleet0 [leave]) = [(false, false, 0%Z, 0%Z); (false, false, 0%Z, 0%Z); (false, false, 0%Z, 0%Z)] /\
  show (car_run fleet0 [quiet; leave]) = [(true, false, 0%Z, 0%Z); (false, false, 0%Z, 0%Z); (true, false, 0%Z, 0%Z)] /\
  show (car_run fleet0 [quiet; leave; go [0; 0]%Z [2; 1]%Z [0; 0]%Z]) =
    [(true, false, 0%Z, 1%Z); (true, false, 0%Z, 0%Z); (true, false, 0%Z, 1%Z)] /\
  show (car_run fleet0 [quiet; leave; go [0; 0]%Z [2; 1]%Z [0; 0]%Z; back]) =
    [(false, true, 3%Z, 0%Z); (true, false, 0%Z, 1%Z); (false, true, 3%Z, 0%Z)].
Proof. conj_vm. Qed.

(** ** C72: recharging the energy of a trip *)

(** A car with strategy 0 that arrives with L charging steps to do (what was
    left plus the integer number of steps for the trip) and stays at home is
    reported charging after the arrival and the m following steps iff
    m + 1 < L: that is L - 1 readings, one less than needed. *)
Theorem C72_recharge_partial : forall n s i s1 l s2 k c sl, fleet n s -> uniform n i -> (forall i', In i' l -> uniform n i') ->
  car_do s i = Ok s1 -> car_run s1 l = Ok s2 -> at_ (k_cars s) k c -> arrives s i k c -> ~ leaves s i k c ->
  k_strategy s = Some sl -> at_ sl (c_hh c) 0%nat ->
  (forall l1 i' l2 s', l = l1 ++ i' :: l2 -> car_run s1 l1 = Ok s' -> forall c1, at_ (k_cars s') k c1 -> ~ leaves s' i' k c1) ->
  exists p t c', at_ (k_station s) (c_hh c) p /\ charge_steps (c_cons c) (c_used c + 1) p t /\ at_ (k_cars s2) k c' /\
    (c_chg c' = true <-> (Z.of_nat (length l) + 1 < c_left c + t)%Z).
Proof.
  intros n s i s1 l s2 k c sl Hf Hu Hul H1 H2 Hc Ha Hl Hsl Hst Hstay.
  destruct (car_step_full n s i s1 Hf Hu H1) as (_ & _ & St & _ & _ & _ & _ & _ & _ & _ & A).
  destruct (A k c Hc) as (a & lv & b & t & st & p & X & Xa & Xl & Xp & Xt & (sl' & Xs & Xst) & Xb).
  rewrite Hsl in Xs. injection Xs as <-. pose proof (at_fun _ _ _ _ _ Xst Hst) as Es. subst st.
  assert (a = true) by (apply Xa; exact Ha). subst a. assert (lv = false) by (destruct lv; [|reflexivity]; exfalso; apply Hl, Xl; reflexivity). subst lv.
  assert (b = true) by (apply Xb; auto). subst b. destruct (moved_fields true false true t c) as ((M0 & _) & M1 & _ & M2 & M3).
  set (c1 := moved true false true t c) in *. cbn [negb andb orb] in *. rewrite andb_false_r in M1.
  assert (Hchg : c_chg c1 = true <-> (1 <= c_left c1)%Z) by (rewrite M3; apply Z.leb_le).
  destruct (stay_home n l s1 s2 k c1) as (c' & C1 & C2 & C3 & C4); auto.
  - eapply fleet_step; eauto.
  - intros sl' Hsl'. rewrite M0. congruence.
  - exists p, t, c'. split; [exact Xp|]. split; [auto|]. split; [exact C1|]. rewrite C3, C4, M2.
    destruct (Z.leb_spec 1 (c_left c + t - 1)); lia.
Qed.

(** The number of readings is not the number of charging steps the trip asks
    for: a trip that needs exactly two steps is followed by one charging
    reading. *)
Definition one_car := new_csim [(0%nat, 20, 100%Z)] [2300] (Some [0]%nat) [1]%Z [0]%Z [0]%Z.
Definition drive (o a : Z) := CIn [1 # 2] [0] [o] [a] [0]%Z.
Theorem C72_recharge_refuted : exists s i s1 s2 k c p,
  car_run one_car [drive 1 0; drive 0 1] = Ok s /\ fleet 1 s /\ uniform 1 i /\ car_do s i = Ok s1 /\ car_do s1 i = Ok s2 /\ at_ (k_cars s) k c /\ c_left c = 0%Z /\
  at_ (k_station s) (c_hh c) p /\ c_use c = true /\ charge_steps (c_cons c) (c_used c + 1) p 2 /\
  (exists c1, at_ (k_cars s1) k c1 /\ c_use c1 = false /\ c_chg c1 = true) /\
  (exists c2, at_ (k_cars s2) k c2 /\ c_use c2 = false /\ c_chg c2 = false).
Proof.
  exists (CSim [Car 0 20 100 true 0 0 false] [2300] (Some [0%nat]) [0]%Z [1]%Z [0]%Z 2). exists (drive 1 0). eexists. eexists. exists 0%nat. eexists. eexists.
  split; [vm_compute; reflexivity|].
  split.
  { repeat split; try reflexivity.
    - intros [|k] c Hc; [injection Hc as <-; simpl; lia|destruct k; discriminate].
    - intros st [= <-]. reflexivity. }
  split.
  { repeat split; simpl; intros; destruct h as [|h]; try (injection H as <-; lra); destruct h; discriminate. }
  split; [vm_compute; reflexivity|]. split; [vm_compute; reflexivity|]. split; [reflexivity|]. split; [reflexivity|].
  split; [reflexivity|]. split; [reflexivity|].
  split.
  { split; [vm_compute; discriminate|]. exists (23 # 30). split; [vm_compute; reflexivity|]. split; intro Hq; split; vm_compute; try discriminate; reflexivity. }
  split; eexists; repeat split; reflexivity.
Qed.

(** Worse, trips shorter than a charging step make the counter negative, and
    the debt is taken off the next charges: after three short trips the car has
    -3 steps to do. *)
Definition fast_car := new_csim [(0%nat, 20, 100%Z)] [46000] (Some [0]%nat) [1]%Z [0]%Z [0]%Z.
Theorem C72_debt_refuted : exists l s c,
  car_run fast_car l = Ok s /\ at_ (k_cars s) 0 c /\ c_use c = false /\ (c_left c < 0)%Z.
Proof.
  exists [drive 1 0; drive 0 1; drive 1 0; drive 0 1; drive 1 0; drive 0 1; drive 1 0]. eexists. eexists.
  split; [vm_compute; reflexivity|]. repeat split.
Qed.

Example C72_example :
  show (car_run fast_car [drive 1 0; drive 0 1; drive 1 0; drive 0 1; drive 1 0; drive 0 1; drive 1 0]) = [(false, false, (-3)%Z, 0%Z)] /\
  show (car_run one_car [drive 1 0; drive 0 1; drive 1 0]) = [(false, true, 1%Z, 0%Z)] /\
  show (car_run one_car [drive 1 0; drive 0 1; drive 1 0; drive 1 0]) = [(false, false, 0%Z, 0%Z)].
Proof. conj_vm. Qed.

(** ** C73: charging methods *)

(** 'after use' and 'mixed' give one strategy per household; anything else but
    'timers' is refused. *)
Theorem C73_methods_partial : forall n mixed m, length mixed = n ->
  attributes_strategy "after use" n mixed = Ok (Some (repeat 0%nat n)) /\
  attributes_strategy "mixed" n mixed = Ok (Some mixed) /\
  (m <> "after use" -> m <> "timers" -> m <> "mixed" -> attributes_strategy m n mixed = Err ValueError)%string.
Proof.
  intros n mixed m H. split; [reflexivity|]. split; [reflexivity|]. intros H1 H2 H3. unfold attributes_strategy.
  apply String.eqb_neq in H1, H2, H3. rewrite H1, H2, H3. reflexivity.
Qed.

(** 'timers' gives a simulator of which no step succeeds. *)
Theorem C73_timers_refuted : forall n mixed st, attributes_strategy "timers" n mixed = Ok st ->
  forall s i, k_strategy s = st -> forall s', car_do s i <> Ok s'.
Proof.
  intros n mixed st H s i Hs s' E. injection H as <-. unfold car_do, car_step in E.
  destruct (negb _); [discriminate|]. rewrite Hs in E.
  destruct (mc_from_1d_pdf _ _); cbn [bind] in E; [|discriminate].
  match type of E with bind (one_per_household ?a ?b) _ = _ => destruct (one_per_household a b) end; cbn [bind] in E; [|discriminate].
  match type of E with bind (mapM ?f ?l) _ = _ => destruct (mapM f l) end; cbn [bind] in E; discriminate.
Qed.

(** The step fails with TypeError where a list of strategies would do. *)
Theorem C73_timers_error : forall n s i, fleet n s -> uniform n i ->
  length (i_occ i) = n -> length (i_hoh i) = n -> length (i_hwh i) = n ->
  k_strategy s = None -> (forall h p, at_ (k_station s) h p -> ~ p == 0) ->
  (forall h o o', at_ (k_occ s) h o -> at_ (i_occ i) h o' -> (o - o' <= 5)%Z) ->
  car_do s i = Err TypeError.
Proof.
  intros n s i Hf Hu L1 L2 L3 Hs Hp Ho.
  set (s2 := CSim (k_cars s) (k_station s) (Some (repeat 0%nat n)) (k_occ s) (k_hoh s) (k_hwh s) (k_time s)).
  destruct (car_step_total n s2 i) as [s' E]; unfold s2; cbn [k_station k_occ k_strategy]; auto; [|eauto|].
  { destruct Hf as (F1 & F2 & F3 & F4 & F5 & F6). repeat split; auto. cbn. intros st [= <-]. apply repeat_length. }
  unfold s2 in E. unfold car_do, car_step in E |- *. cbn [k_station k_cars k_occ k_hoh k_hwh k_time k_strategy] in E. rewrite Hs.
  destruct (negb _); [discriminate|].
  destruct (mc_from_1d_pdf _ _); cbn [bind] in E |- *; [|discriminate].
  match type of E with bind (one_per_household ?a ?b) _ = _ => destruct (one_per_household a b) end; cbn [bind] in E |- *; [|discriminate].
  match type of E with bind (mapM ?f ?l) _ = _ => destruct (mapM f l) end; cbn [bind] in E |- *; [reflexivity|discriminate].
Qed.

Example C73_example :
  attributes_strategy "timers" 2 [0; 1]%nat = Ok None /\
  car_do (new_csim [(0%nat, 20, 100%Z)] [2300] None [1]%Z [0]%Z [0]%Z) (drive 1 0) = Err TypeError /\
  attributes_strategy "solar" 2 [0; 1]%nat = Err ValueError.
Proof. conj_vm. Qed.

(** ** C74: the fleet *)

(** Household h owns exactly the sampled number of cars. *)
Theorem C74_owners : forall n_cars h,
  count_nat h (car_households n_cars) = nth h n_cars 0%nat.
Proof. intros n_cars h. unfold car_households. rewrite car_households_count. simpl. rewrite Nat.sub_0_r. reflexivity. Qed.

(** A household has at most three cars. *)
Theorem C74_at_most_three : forall u l, sample_n_cars u = Ok l -> length l = length u /\ forall h k, at_ l h k -> (k <= 3)%nat.
Proof.
  intros u l H. unfold sample_n_cars, Sampling_Model.mc_from_1d_pdf, Sampling_Model.mc_from_1d_cdf, n_cars_pdf in H.
  cbn [cumsum cumsum_from] in H. destruct (mapM_ok _ _ _ _ _ H) as [L K]. split; [exact L|]. intros h k Hk.
  destruct (lt_at _ u h) as [x Hx]. { apply at_lt in Hk. lia. } destruct (K h x Hx) as (y & Hy & Ey). unfold at_ in Hk. rewrite Hk in Hy.
  injection Hy as <-. unfold Sampling_Model.mc_one, argmax_bool in Ey. cbn [map first_true] in Ey.
  repeat match type of Ey with context [Qltb ?a ?b] => destruct (Qltb a b) end; cbn in Ey; injection Ey as <-; lia.
Qed.

Example C74_example : car_households [2; 0; 1]%nat = [0; 0; 2]%nat /\ sample_n_cars [1 # 10; 1 # 2; 99 # 100] = Ok [0; 1; 3]%nat.
Proof. conj_vm. Qed.

(** ** C118: energy of driving *)

(** Power of a car: 23 km per hour at its consumption while in use, else nothing. *)
Theorem C118_power : forall s k c, at_ (k_cars s) k c -> exists w, at_ (driving_consumption s) k w /\
  (c_use c = true -> w == c_cons c * 230) /\ (c_use c = false -> w == 0).
Proof. exact driving_at. Qed.

(** A car leaves, is away for some steps and arrives: the charging steps added are the
    energy read during the trip at the power of the station, rounded down. *)
Theorem C118_trip : forall n cars station strategy occ hoh hwh l0 s i0 s1 l s2 i s3 k c0 c1 c2,
  fleet n (new_csim cars station strategy occ hoh hwh) -> (forall i', In i' (l0 ++ i0 :: l ++ [i]) -> uniform n i') ->
  car_run (new_csim cars station strategy occ hoh hwh) l0 = Ok s -> car_do s i0 = Ok s1 -> car_run s1 l = Ok s2 -> car_do s2 i = Ok s3 ->
  at_ (k_cars s) k c0 -> c_use c0 = false -> at_ (k_cars s1) k c1 -> c_use c1 = true ->
  (forall l1 i' l2 s' c', l = l1 ++ i' :: l2 -> car_run s1 l1 = Ok s' -> at_ (k_cars s') k c' -> ~ arrives s' i' k c') ->
  at_ (k_cars s2) k c2 -> arrives s2 i k c2 ->
  exists e p t d, joules s (i0 :: l) k = Ok e /\ at_ (k_station s2) (c_hh c2) p /\ ~ p == 0 /\ int_part (e / p / 600) t /\ at_ (k_cars s3) k d /\
    (c_left d = c_left c2 + t \/ c_left d = c_left c2 + t - 1)%Z.
Proof. exact trip_read. Qed.

Example C118_example :
  match car_run fleet0 [quiet; leave] with Ok s => map Qred (driving_consumption s) | Err _ => [] end = [4600; 0; 4600] /\
  match car_run fleet0 [quiet] with Ok s => match joules s [leave; leave; back] 0 with Ok e => Some (Qred e) | Err _ => None end | Err _ => None end = Some 5520000 /\
  show (car_run fleet0 [quiet; leave; leave; back]) = [(false, true, 3%Z, 0%Z); (false, false, 0%Z, 0%Z); (false, true, 3%Z, 0%Z)].
Proof. conj_vm. Qed.

Print Assumptions C43_invariant.
Print Assumptions C43_demand.
Print Assumptions C43_no_error.
Print Assumptions C43_start.
Print Assumptions C43_charges.
Print Assumptions C44_exact.
Print Assumptions C44_conserved.
Print Assumptions C44_one_at_a_time.
Print Assumptions C44_reasons.
Print Assumptions C44_turnaround_refuted.
Print Assumptions C44_used.
Print Assumptions C72_recharge_partial.
Print Assumptions C72_recharge_refuted.
Print Assumptions C72_debt_refuted.
Print Assumptions C73_methods_partial.
Print Assumptions C73_timers_refuted.
Print Assumptions C73_timers_error.
Print Assumptions C74_owners.
Print Assumptions C74_at_most_three.
Print Assumptions C118_power.
Print Assumptions C118_trip.
