(** * Properties of the lighting simulators (C41, C42, C70, C71). *)

From Coq Require Import String List ZArith QArith Qround Bool Arith Lia Lqa.
From Verif Require Import Prelude PreludeFacts SpecBase SpecBaseFacts Appliance_Model Appliance_Spec.
From Verif Require Import Matrix_Proofs Appliance_Proofs Light_Model Light_Spec Light_Proofs.
Import ListNotations.

Open Scope Q_scope.

(** ** C41: Fisher lighting *)

(** The power of a household lies between zero and the individual use times
    the active occupancy. *)
Theorem C41_bounds : forall f occ irr, f_min f < f_max f -> 0 <= f_use f -> nonneg occ ->
  exists l, fisher_power (fisher_step f occ irr) = Ok (PerHousehold l) /\ length l = length occ /\
    forall h o p, at_ occ h o -> at_ l h p -> 0 <= p <= f_use f * o.
Proof.
  intros f occ irr Hm Hu Ho. destruct (fisher_power_ok (fisher_step f occ irr) Hm) as (v & E & Ev). simpl in E. rewrite E.
  eexists. split; [reflexivity|]. split; [apply map_length|]. intros h o p H1 H2. apply at_map in H2. destruct H2 as (o' & H2 & ->).
  rewrite (at_fun _ _ _ _ _ H2 H1). specialize (Ho h o H1). simpl.
  pose proof (clip01_range ((f_max f - irr) / (f_max f - f_min f))) as R. simpl in Ev. rewrite <- Ev in R. assert (0 <= o * f_use f) by nra. nra.
Qed.

(** More light outside never means more power. *)
Theorem C41_monotone : forall f occ irr irr', f_min f < f_max f -> 0 <= f_use f -> nonneg occ -> irr <= irr' ->
  exists l l', fisher_power (fisher_step f occ irr) = Ok (PerHousehold l) /\
    fisher_power (fisher_step f occ irr') = Ok (PerHousehold l') /\
    forall h p p', at_ l h p -> at_ l' h p' -> p' <= p.
Proof.
  intros f occ irr irr' Hm Hu Ho Hi.
  destruct (fisher_power_ok (fisher_step f occ irr) Hm) as (v & E & Ev). simpl in E. rewrite E.
  destruct (fisher_power_ok (fisher_step f occ irr') Hm) as (v' & E' & Ev'). simpl in E'. rewrite E'.
  eexists. eexists. split; [reflexivity|]. split; [reflexivity|]. intros h p p' H1 H2.
  apply at_map in H1. destruct H1 as (o & H1 & ->). apply at_map in H2. destruct H2 as (o' & H2 & ->).
  rewrite (at_fun _ _ _ _ _ H2 H1). specialize (Ho h o H1). simpl in *.
  assert (V : v' <= v).
  { rewrite Ev, Ev'. apply clip01_mono. unfold Qdiv. apply Qmult_le_compat_r; [lra|]. apply Qinv_le_0_compat. lra. }
  assert (0 <= o * f_use f) by nra. nra.
Qed.

(** Full use below the lower threshold, none above the upper one or without
    active occupants, and the straight line in between. *)
Theorem C41_thresholds : forall f occ irr, f_min f < f_max f ->
  exists l, fisher_power (fisher_step f occ irr) = Ok (PerHousehold l) /\
    forall h o p, at_ occ h o -> at_ l h p ->
      (irr <= f_min f -> p == f_use f * o) /\
      (f_max f <= irr -> p == 0) /\
      (o == 0 -> p == 0) /\
      (f_min f <= irr <= f_max f -> p * (f_max f - f_min f) == f_use f * o * (f_max f - irr)).
Proof.
  intros f occ irr Hm. destruct (fisher_power_ok (fisher_step f occ irr) Hm) as (v & E & Ev). simpl in E. rewrite E.
  eexists. split; [reflexivity|]. intros h o p H1 H2. apply at_map in H2. destruct H2 as (o' & H2 & ->).
  rewrite (at_fun _ _ _ _ _ H2 H1). simpl in *.
  assert (D : 0 < f_max f - f_min f) by lra.
  split; [|split; [|split]].
  - intro Hi. rewrite Ev, clip01_one; [ring|]. apply Qle_shift_div_l; lra.
  - intro Hi. rewrite Ev, clip01_zero; [ring|]. apply Qle_shift_div_r; lra.
  - intro Hz. rewrite Hz. ring.
  - intros [Ha Hb]. rewrite Ev, clip01_id; [field; lra| |].
    + apply Qle_shift_div_l; lra.
    + apply Qle_shift_div_r; lra.
Qed.

(** Equal thresholds are an error. *)
Theorem C41_equal_thresholds : forall f, f_max f == f_min f -> fisher_power f = Err ZeroDivisionError.
Proof.
  intros f H. unfold fisher_power, light_usage. assert (E : Qeq_bool (f_max f - f_min f) 0 = true) by (apply Qeq_bool_iff; lra).
  rewrite E. reflexivity.
Qed.

Definition fish := fisher_init 20 100 50 None None.
Example C41_example :
  match fisher_power (fisher_step fish [2; 0; 1] 40) with Ok (PerHousehold l) => map Qred l | _ => [] end = [75; 0; 75 # 2] /\
  match fisher_power (fisher_step fish [2; 0; 1] 5) with Ok (PerHousehold l) => map Qred l | _ => [] end = [100; 0; 50] /\
  match fisher_power (fisher_step fish [2; 0; 1] 300) with Ok (PerHousehold l) => map Qred l | _ => [] end = [0; 0; 0].
Proof. conj_vm. Qed.

(** ** C70: one value per household *)

(** After any step the power has one entry per household. *)
Theorem C70_after_step_partial : forall f occ irr v, fisher_power (fisher_step f occ irr) = Ok v ->
  exists l, v = PerHousehold l /\ length l = length occ.
Proof.
  intros f occ irr v H. unfold fisher_power in H. destruct (light_usage _ _); simpl in H; [|discriminate].
  injection H as <-. eexists. split; [reflexivity|apply map_length].
Qed.

(** It is not so for a simulator built without an initial occupancy: the power
    is a single number whatever the number of households. *)
Theorem C70_initial_refuted : exists mn mx use irr v, mn < mx /\
  fisher_power (fisher_init mn mx use None irr) = Ok v /\ forall l, v <> PerHousehold l.
Proof.
  exists 20, 100, 50, None. eexists. split; [reflexivity|]. split; [vm_compute; reflexivity|]. intros l H. discriminate.
Qed.

(** Without an initial irradiance it is dark, without an initial occupancy the single
    number is that of one person. *)
Theorem C70_new : forall mn mx use l, mn < mx -> 0 <= mn ->
  (exists q, fisher_power (fisher_init mn mx use None None) = Ok (Single q) /\ q == use) /\
  (exists v, fisher_power (fisher_init mn mx use (Some l) None) = Ok (PerHousehold v) /\ length v = length l /\
     forall h x, at_ l h x -> exists q, at_ v h q /\ q == x * use) /\
  (forall irr, fisher_power (fisher_init mn mx use (Some l) (Some irr)) = fisher_power (fisher_step (fisher_init mn mx use None None) l irr)).
Proof.
  intros mn mx use l L M. unfold fisher_power, light_usage, fisher_init. cbn [f_max f_min f_irr f_occ f_use].
  assert (E : Qeq_bool (mx - mn) 0 = false). { apply not_true_iff_false. intro E. apply Qeq_bool_iff in E. lra. }
  rewrite E. cbn [bind].
  assert (C : clip01 ((mx - 0) / (mx - mn)) == 1).
  { assert (B : 1 <= (mx - 0) / (mx - mn)) by (apply Qle_shift_div_l; lra). unfold clip01, Qltb.
    repeat match goal with |- context [Qle_bool ?a ?b] => destruct (Qle_bool a b) eqn:?; cbn [negb] end;
      repeat match goal with H : Qle_bool _ _ = true |- _ => apply Qle_bool_iff in H end; try reflexivity; try lra.
    apply not_true_iff_false in Heqb. rewrite Qle_bool_iff in Heqb. lra. }
  split; [|split].
  - eexists. split; [reflexivity|]. rewrite C. ring.
  - eexists. split; [reflexivity|]. split; [apply map_length|]. intros h x Hx. eexists. split; [unfold at_ in *; rewrite nth_error_map, Hx; reflexivity|]. rewrite C. ring.
  - intro irr. unfold fisher_step. cbn [f_max f_min f_irr f_occ f_use]. rewrite E. reflexivity.
Qed.

Example C70_example : fisher_power fish = Ok (Single (1 * 50 * 1)).
Proof. reflexivity. Qed.

(** ** C42: CREST bulbs *)

(** Two households with two bulbs; the second bulb of the second household is
    missing. *)
Definition lamps := LSim [[Some 60; Some 40]; [Some 100; None]] [[1; 2]; [1; 1]] [50; 10] [[0; 0]; [0; nan_to_int]]%Z.
Definition lparams := LPar (1 # 2) [0; 1; (3 # 2)] [(1 # 2); 1] [1; 3] [3; 9].
Definition dr (five on e r : Q) := LDraws (fun _ _ => five) (fun _ _ => on) (fun _ _ => e) (fun _ _ => r).
(** The bulbs of the first household start for 3 + (9-3)/2 = 6 minutes. *)
Definition start := LIn (dr 1 (1 # 4) (3 # 4) (1 # 2)) [1; 1]%Z 20.
Definition later := LIn (dr 1 1 (3 # 4) (1 # 2)) [1; 1]%Z 20.
Definition left_home := LIn (dr 1 1 0 0) [0; 1]%Z 20.

(** One step of one bulb. *)
Theorem C42_step : forall par s i s' h j b n, light_do par s i = Ok s' -> bulb_at s h j b ->
  at_ (in_occ i) h n -> (0 <= n)%Z ->
  exists b', bulb_at s' h j b' /\ same_bulb b b' /\
    (n = 0%Z -> b_left b' = 0%Z) /\
    ((0 < n)%Z -> less_one (b_left b) <> 0%Z -> b_left b' = less_one (b_left b)) /\
    ((0 < n)%Z -> less_one (b_left b) = 0%Z -> ~ drawn_on par i h j b -> b_left b' = 0%Z) /\
    ((0 < n)%Z -> less_one (b_left b) = 0%Z -> drawn_on par i h j b ->
       exists q, drawn_duration par i h j q /\ int_part q (b_left b')).
Proof. exact light_step_at. Qed.

(** No light in a household without active occupants, and no consumption. *)
Theorem C42_nobody : forall n k par s i s' h, lights n k s -> light_do par s i = Ok s' -> nobody i h ->
  (forall j, ~ lit s' h j) /\ exists c, at_ (light_consumption s') h c /\ c == 0.
Proof.
  intros n k par s i s' h Hs H Hn. destruct (light_step_lights _ _ _ _ _ _ Hs H) as [Hs' Hl].
  assert (Hh : (h < n)%nat) by (apply at_lt in Hn; lia).
  assert (Z : forall j b', bulb_at s' h j b' -> b_left b' = 0%Z).
  { intros j b' Hb'. assert (Hj : (j < k)%nat). { destruct Hb' as (B & _). apply (at2_shaped _ _ _ _ _ _ _ (proj1 Hs') B). }
    destruct Hs as (S1 & S2 & S3 & S4). destruct (shaped_at2 _ _ _ _ _ _ S1 Hh Hj) as [p Hp].
    destruct (shaped_at2 _ _ _ _ _ _ S2 Hh Hj) as [u Hu]. destruct (lt_at _ (l_thr s) h) as [t Ht]; [lia|].
    destruct (shaped_at2 _ _ _ _ _ _ S4 Hh Hj) as [l Hl'].
    destruct (light_step_at par s i s' h j (Bulb p u t l) 0 H) as (b & B1 & _ & B2 & _); [|exact Hn|lia|].
    { split; [exact Hp|]. split; [exact Hu|]. split; [exact Ht|exact Hl']. }
    destruct Hb' as (_ & _ & _ & L). destruct B1 as (_ & _ & _ & L'). rewrite (at2_fun _ _ _ _ _ _ L L'). auto. }
  split; [intros j (b & Hb & Hpos); rewrite (Z j b Hb) in Hpos; lia|].
  destruct (consumption_at n k s' h Hs' Hh) as (c & terms & Hc & Ec & Elen & A). exists c. split; [exact Hc|].
  rewrite Ec, (total_qsum terms). apply qsum_zero. apply Forall_forall. intros x Hx. apply in_at in Hx. destruct Hx as [j Hx].
  destruct (A j) as (b & y & Hb & Hy & _ & Hz). { apply at_lt in Hx. lia. } rewrite (at_fun _ _ _ _ _ Hx Hy). apply Hz. right.
  rewrite (Z j b Hb). lia.
Qed.

(** A bulb with D minutes left stays lit for the next D - 1 steps while the
    occupants stay active; at the D-th step it goes dark unless the draws of
    that step light it again. *)
Theorem C42_duration : forall par l i s s' h j b, light_run par s l = Ok s' -> bulb_at s h j b -> (0 < b_left b)%Z ->
  (forall i', In i' l -> active i' h) ->
  ((Z.of_nat (length l) < b_left b)%Z -> lit s' h j) /\
  (Z.of_nat (length l) = (b_left b - 1)%Z -> active i h -> ~ drawn_on par i h j b ->
     forall s2, light_do par s' i = Ok s2 -> ~ lit s2 h j) /\
  (Z.of_nat (length l) = (b_left b - 1)%Z -> active i h -> drawn_on par i h j b ->
     forall s2, light_do par s' i = Ok s2 -> exists q b2, drawn_duration par i h j q /\ bulb_at s2 h j b2 /\ int_part q (b_left b2)).
Proof.
  intros par l i s s' h j b H Hb Hpos Ha.
  assert (R : (Z.of_nat (length l) < b_left b)%Z -> exists b', bulb_at s' h j b' /\ same_bulb b b' /\ b_left b' = (b_left b - Z.of_nat (length l))%Z).
  { intro Hl. exact (light_run_left par l s s' h j b H Hb Ha Hl). }
  split; [|split].
  - intro Hl. destruct (R Hl) as (b' & B1 & _ & B2). exists b'. split; [exact B1|lia].
  - intros Hl (n & Hn & Hn0) Hd s2 H2 (b2 & Hb2 & Hpos2). destruct (R ltac:(lia)) as (b' & B1 & (E1 & E2 & E3) & B2).
    destruct (light_step_at par s' i s2 h j b' n H2 B1 Hn ltac:(lia)) as (b3 & C1 & _ & _ & _ & C2 & _).
    assert (L : less_one (b_left b') = 0%Z). { unfold less_one. destruct (Z.ltb_spec 0 (b_left b')); lia. }
    assert (Z3 : b_left b3 = 0%Z).
    { apply C2; [exact Hn0|exact L|]. intros [D1 D2]. apply Hd. split; [rewrite <- E3; exact D1|]. rewrite <- E2. exact D2. }
    destruct Hb2 as (_ & _ & _ & G1). destruct C1 as (_ & _ & _ & G2). rewrite (at2_fun _ _ _ _ _ _ G1 G2) in Hpos2. lia.
  - intros Hl (n & Hn & Hn0) Hd s2 H2. destruct (R ltac:(lia)) as (b' & B1 & (E1 & E2 & E3) & B2).
    destruct (light_step_at par s' i s2 h j b' n H2 B1 Hn ltac:(lia)) as (b3 & C1 & _ & _ & _ & _ & C2).
    assert (L : less_one (b_left b') = 0%Z). { unfold less_one. destruct (Z.ltb_spec 0 (b_left b')); lia. }
    destruct C2 as (q & Q1 & Q2); [exact Hn0|exact L| |].
    { destruct Hd as [D1 D2]. split; [rewrite E3; exact D1|]. rewrite E2. exact D2. }
    exists q, b3. auto.
Qed.

(** From the step that lights it: a bulb whose drawn duration is q is lit after
    this step and the following ones exactly as long as their number is below
    the integer part of q. *)
Theorem C42_lit_for_duration : forall par s i s1 l s2 h j b n, light_do par s i = Ok s1 -> bulb_at s h j b ->
  at_ (in_occ i) h n -> (0 < n)%Z -> (b_left b = 0 \/ b_left b = 1)%Z -> drawn_on par i h j b ->
  (forall i', In i' l -> active i' h /\ ~ drawn_on par i' h j b) -> light_run par s1 l = Ok s2 ->
  exists q z, drawn_duration par i h j q /\ int_part q z /\
    ((0 <= z)%Z -> (lit s2 h j <-> (Z.of_nat (length l) < z)%Z)).
Proof.
  intros par s i s1 l s2 h j b n H Hb Hn Hpos Hz Hd Hl H2.
  destruct (light_step_at par s i s1 h j b n H Hb Hn ltac:(lia)) as (b1 & B1 & (E1 & E2 & E3) & _ & _ & _ & K).
  destruct K as (q & Q1 & Q2); [exact Hpos| |exact Hd|].
  { unfold less_one. destruct (Z.ltb_spec 0 (b_left b)); lia. }
  exists q, (b_left b1). split; [exact Q1|]. split; [exact Q2|]. intros Hnn.
  assert (Hd1 : forall i', In i' l -> active i' h /\ ~ drawn_on par i' h j b1).
  { intros i' Hi. destruct (Hl i' Hi) as [A1 A2]. split; [exact A1|]. intros [D1 D2]. apply A2. rewrite E3 in D1. rewrite E2 in D2. split; assumption. }
  clear -H2 B1 Hnn Hd1.
  (* once dark, it stays dark *)
  assert (R : exists b', bulb_at s2 h j b' /\ same_bulb b1 b' /\ b_left b' = Z.max 0 (b_left b1 - Z.of_nat (length l))).
  { revert s1 b1 H2 B1 Hnn Hd1. induction l as [|i l IH]; intros s1 b1 H2 B1 Hnn Hd1; simpl in H2.
    - injection H2 as <-. exists b1. split; [exact B1|]. split; [repeat split|simpl; lia].
    - destruct (light_do par s1 i) as [s3|] eqn:E; simpl in H2; [|discriminate].
      destruct (Hd1 i (or_introl eq_refl)) as [(m & Hm & Hm0) Hnd].
      destruct (light_step_at par s1 i s3 h j b1 m E B1 Hm ltac:(lia)) as (b3 & C1 & (F1 & F2 & F3) & _ & K1 & K2 & _).
      assert (V : b_left b3 = Z.max 0 (b_left b1 - 1)).
      { destruct (Z.eq_dec (less_one (b_left b1)) 0) as [L|L].
        - rewrite (K2 Hm0 L Hnd). unfold less_one in L. destruct (Z.ltb_spec 0 (b_left b1)); lia.
        - rewrite (K1 Hm0 L). unfold less_one in *. destruct (Z.ltb_spec 0 (b_left b1)); lia. }
      destruct (IH s3 b3 H2 C1 ltac:(lia)) as (b4 & D1 & (G1 & G2 & G3) & D2).
      { intros i' Hi. destruct (Hd1 i' (or_intror Hi)) as [A1 A2]. split; [exact A1|]. intros [X1 X2]. apply A2.
        rewrite F3 in X1. rewrite F2 in X2. split; assumption. }
      exists b4. split; [exact D1|]. split; [repeat split; congruence|]. rewrite D2, V. cbn [length]. lia. }
  destruct R as (b' & R1 & _ & R2). split.
  - intros (b2 & Hb2 & Hp). destruct Hb2 as (_ & _ & _ & G1). destruct R1 as (_ & _ & _ & G2). rewrite (at2_fun _ _ _ _ _ _ G1 G2) in Hp. lia.
  - intro Hlt. exists b'. split; [exact R1|lia].
Qed.

(** Consumption is the sum of the powers of the lit bulbs (bulbs of unknown
    power count for nothing). *)
Theorem C42_consumption : forall n k s h, lights n k s -> (h < n)%nat -> exists c terms,
  at_ (light_consumption s) h c /\ c == total terms /\ length terms = k /\
  forall j, (j < k)%nat -> exists b x, bulb_at s h j b /\ at_ terms j x /\
    (forall p, b_pow b = Some p -> (0 < b_left b)%Z -> x == p) /\
    ((b_pow b = None \/ (b_left b <= 0)%Z) -> x == 0).
Proof. exact consumption_at. Qed.

(** A step raises nothing when the data covers the numbers of occupants. *)
Theorem C42_no_error : forall n k par s i, lights n k s -> length (in_occ i) = n ->
  (forall h m, at_ (in_occ i) h m -> (0 <= m < Z.of_nat (length (p_eff par)))%Z) ->
  p_cdf par <> [] -> (length (p_cdf par) <= length (p_low par))%nat -> (length (p_cdf par) <= length (p_high par))%nat ->
  exists s', light_do par s i = Ok s' /\ lights n k s'.
Proof.
  intros n k par s i Hs H1 H2 H3 H4 H5. destruct (light_step_total n k par s i Hs H1 H2 H3 H4 H5) as [s' E].
  exists s'. split; [exact E|]. exact (proj1 (light_step_lights _ _ _ _ _ _ Hs E)).
Qed.

Definition lefts (r : result lsim) := match r with Ok s => l_left s | Err _ => [] end.
Definition powers (r : result lsim) := match r with Ok s => map Qred (light_consumption s) | Err _ => [] end.
Example C42_example :
  lefts (light_run lparams lamps [start]) = [[6; 6]; [0; nan_to_int]]%Z /\
  powers (light_run lparams lamps [start]) = [100; 0] /\
  lefts (light_run lparams lamps [start; later; later]) = [[4; 4]; [0; nan_to_int]]%Z /\
  lefts (light_run lparams lamps [start; later; later; later; later; later]) = [[1; 1]; [0; nan_to_int]]%Z /\
  lefts (light_run lparams lamps [start; later; later; later; later; later; later]) = [[0; 0]; [0; nan_to_int]]%Z /\
  lefts (light_run lparams lamps [start; left_home]) = [[0; 0]; [0; nan_to_int]]%Z /\
  light_run lparams lamps [LIn (dr 1 1 0 0) [3; 1]%Z 20] = Err IndexError.
Proof. conj_vm. Qed.

(** The bulbs start switched off; missing bulbs are never lit. *)
Theorem C42_start : forall power m, initialize_bulbs "off" power = Ok m ->
  forall h j t, at2 m h j t -> (t <= 0)%Z /\ (exists p, at2 power h j (Some p) /\ t = 0%Z) \/ (t < 0)%Z /\ at2 power h j None.
Proof.
  intros power m H h j t Ht. unfold initialize_bulbs in H. simpl in H. injection H as <-. apply at2_map in Ht.
  destruct Ht as ([p|] & Hp & ->).
  - left. assert (E : trunc (p * 0) = 0%Z). { rewrite (trunc_comp _ 0); [reflexivity|ring]. } rewrite E. split; [lia|]. eauto.
  - right. split; [reflexivity|exact Hp].
Qed.

(** Another starting method is refused. *)
Theorem C42_method : forall method power, method <> "off"%string -> initialize_bulbs method power = Err ValueError.
Proof. intros method power N. unfold initialize_bulbs. apply String.eqb_neq in N. rewrite N. reflexivity. Qed.

(** ** C71: sampled bulbs *)

(** 'randn': every household gets the integer part of the Gaussian number of
    bulbs, at least one, each taken from the list of consumptions; the rest of
    its row is zero power. *)
Theorem C71_randn : forall mean std cons pen g u m, bulbs_randn mean std cons pen g u = Ok m ->
  length m = length g /\
  exists width, (forall h row, at_ m h row -> length row = width) /\
  forall h x row, at_ g h x -> at_ m h row ->
    exists n, (1 <= n <= width)%nat /\
      (forall z, int_part (mean + std * x) z -> n = Z.to_nat (Z.max 1 z)) /\
      (forall j p, at_ row j p -> (j < n)%nat -> In p cons) /\
      (forall j p, at_ row j p -> (n <= j)%nat -> p = 0).
Proof. exact bulbs_randn_ok. Qed.

(** 'config': every household gets one of the configurations, the one drawn. *)
Theorem C71_config : forall A (configs : list (list A)) r,
  (forall x, In x r -> (x < length configs)%nat) ->
  exists m, bulbs_config configs r = Ok m /\ length m = length r /\
    forall h x, at_ r h x -> exists row, at_ m h row /\ at_ configs x row.
Proof.
  intros A configs r H. unfold bulbs_config. destruct (mapM_total _ _ (vget configs) r) as [m E].
  { intros x Hx. destruct (lt_at _ configs x (H x Hx)) as [row Hr]. exists row. now apply vget_ok. }
  exists m. split; [exact E|]. destruct (mapM_ok _ _ _ _ _ E) as [L K]. split; [exact L|]. intros h x Hx.
  destruct (K h x Hx) as (row & H1 & H2). exists row. split; [exact H1|now apply vget_ok].
Qed.

Example C71_example :
  bulbs_randn 2 1 [60; 20] [(1 # 2); (1 # 2)] [1; -3] (fun h j => if (j =? 1)%nat then 3 # 4 else 0) = Ok [[60; 20; 60]; [60; 0; 0]] /\
  bulbs_randn 2 1 [60; 20] [(1 # 2); (1 # 2)] [] (fun h j => 0) = Err ValueError /\
  bulbs_config [[60; 20]; [40; 40]] [1; 1; 0]%nat = Ok [[40; 40]; [40; 40]; [60; 20]].
Proof. conj_vm. Qed.

Print Assumptions C41_bounds.
Print Assumptions C41_monotone.
Print Assumptions C41_thresholds.
Print Assumptions C41_equal_thresholds.
Print Assumptions C70_after_step_partial.
Print Assumptions C70_initial_refuted.
Print Assumptions C42_step.
Print Assumptions C42_nobody.
Print Assumptions C42_duration.
Print Assumptions C42_lit_for_duration.
Print Assumptions C42_consumption.
Print Assumptions C42_no_error.
Print Assumptions C42_start.
Print Assumptions C42_method.
Print Assumptions C70_new.
Print Assumptions C71_randn.
Print Assumptions C71_config.
