(** * Properties of the appliance simulators (C37-C40, C66-C69). *)

From Coq Require Import Ascii String List ZArith QArith Qround Bool Arith Lia Lqa.
From Verif Require Import Prelude PreludeFacts SpecBase SpecBaseFacts Appliance_Model Appliance_Spec.
From Verif Require Import Matrix_Proofs Appliance_Proofs Appliance_RunProofs Appliance_TypeProofs.
Import ListNotations.

Open Scope Q_scope.

(** Two households, a lamp (2 steps, delay 3), a tap (flow 4) and a machine
    that follows a load profile of three steps. *)
Definition lamp := App "lamp" 1 60 false 2 3 false 0 true (1#2) 0.
Definition tap := App "tap" 0 0 false 5 0 true 4 false (1#2) 0.
Definition machine := App "machine" (1#2) 0 true 7 1 false 0 false (1#2) 0.
Definition demo := ASim [lamp; tap; machine] [[true; true; true]; [true; false; false]]
  [[0; 0; 0]; [0; 0; 0]] [[0; 0; 0]; [2; 0; 0]]%Z [[0; 0; 3]; [0; 0; 3]]%nat [[0; 0; 0]; [0; 0; 0]]%nat
  [("machine"%string, [[10; 20; 30]])].
Definition vol0 (h j : nat) : nat := 10.
Definition always (h j : nat) : Q := 0.
(** The lamp and the tap are drawn, the machine is not. *)
Definition some (h j : nat) : Q := if (j <? 2)%nat then 0 else 1.
Definition in_some (o : list Z) := OccIn [[[0; 1]]] [0; 0]%nat some vol0 vol0 o.
Definition in_none (o : list Z) := OccIn [[[0; 1]]] [0; 0]%nat (fun _ _ => 1) vol0 vol0 o.

(** ** C37: duration of a cycle *)

(** Parent class: an appliance switched on is reported in use by the readings
    0 .. d-1 steps later, and can be switched on again when the cycle is over and
    the integer part of duration plus delay has elapsed. *)
Theorem C37_parent_cycle : forall s vol idx s' h j v,
  switch_on s vol idx = Ok s' -> In (h, j) idx -> sees s h j v ->
  exists d, ((ap_variable (v_app v) = true -> d == qn (v_dur v)) /\
             (ap_variable (v_app v) = false -> cycle_length v (vol h j) d)) /\
    forall z, int_part (d + inject_Z (ap_delay (v_app v))) z -> forall n,
      (at2 (get_current_usage (after n s')) h j true <-> v_own v = true /\ qn n < d) /\
      (at2 (get_mask_available_appliances (after n s')) h j true <->
         v_own v = true /\ d <= qn n /\ (z <= Z.of_nat n)%Z).
Proof.
  intros s vol idx s' h j v H Hin Hv. destruct (cycle_after s vol idx s' h j v H Hin Hv) as (d & Cd & A).
  exists d. split; [exact Cd|]. intros z Hz n.
  rewrite (int_part_unique _ _ _ Hz (trunc_int_part _)). exact (A n).
Qed.

(** For a cycle of k steps and a delay of r steps: in use for exactly k steps,
    then unavailable for exactly r steps. *)
Theorem C37_parent_whole : forall s vol idx s' h j v (k r : nat),
  switch_on s vol idx = Ok s' -> In (h, j) idx -> sees s h j v -> v_own v = true ->
  ap_delay (v_app v) = Z.of_nat r ->
  (ap_variable (v_app v) = true -> v_dur v = k) ->
  (ap_variable (v_app v) = false -> ap_water (v_app v) = false /\ v_dur v = 0%nat /\ ap_duration (v_app v) == qn k) ->
  forall n, (at2 (get_current_usage (after n s')) h j true <-> (n < k)%nat) /\
            (at2 (get_mask_available_appliances (after n s')) h j true <-> (k + r <= n)%nat).
Proof.
  intros s vol idx s' h j v k r H Hin Hv Ow Hr H1 H2 n. destruct (cycle_after s vol idx s' h j v H Hin Hv) as (d & [C1 C2] & A).
  assert (D : d == qn k).
  { destruct (ap_variable (v_app v)).
    - rewrite (C1 eq_refl), (H1 eq_refl). reflexivity.
    - destruct (H2 eq_refl) as (W & L & M). destruct (C2 eq_refl) as (_ & _ & C). rewrite C by assumption. exact M. }
  assert (T : trunc (d + inject_Z (ap_delay (v_app v))) = Z.of_nat (k + r)).
  { rewrite Hr. rewrite (trunc_comp _ (inject_Z (Z.of_nat (k + r)))); [apply trunc_inject|].
    rewrite D. unfold qn. rewrite Nat2Z.inj_add, inject_Z_plus. reflexivity. }
  destruct (A n) as [A1 A2]. rewrite A1, A2, T.
  assert (Lt : qn n < d <-> (n < k)%nat). { rewrite D. unfold qn. rewrite <- Zlt_Qlt. lia. }
  assert (Le : d <= qn n <-> (k <= n)%nat). { rewrite D. unfold qn. rewrite <- Zle_Qle. lia. }
  rewrite Lt, Le. split; [tauto|]. split; [intros (_ & _ & X); lia|intro X; split; [exact Ow|lia]].
Qed.

(** Nothing else changes: appliances and households that are not switched on
    keep their state. *)
Theorem C37_parent_others : forall s vol idx s' h j v,
  switch_on s vol idx = Ok s' -> sees s h j v -> ~ In (h, j) idx -> sees s' h j v.
Proof.
  intros s vol idx s' h j v H Hv Hn. destruct (switch_on_ok _ _ _ _ H) as (_ & _ & A). exact (proj2 (A h j v Hv) Hn).
Qed.

(** Occupancy simulator: an appliance that starts in a step is reported in use
    after the k-th step, counting the step in which it starts, iff k < d; until
    it is available again nothing restarts it.  The step that starts it already
    uses up one step of the cycle: it is reported for one step less than d. *)
Theorem C37_occupancy_partial : forall n s i s1 rest s2 h j v,
  simulates n s -> draws i -> (forall i', In i' rest -> draws i') ->
  occ_do s i = Ok s1 -> occ_run s1 rest = Ok s2 -> sees s h j v -> may_start i h j v ->
  ~ forced_off i h v -> (forall i', In i' rest -> ~ forced_off i' h v) ->
  exists d, occ_cycle_length v (i_vol2 i h j) d /\
    forall z, int_part (d + inject_Z (ap_delay (v_app v))) z ->
    let k := S (length rest) in
    (rest = [] \/ qn (k - 1) < d \/ (Z.of_nat (k - 1) < z)%Z) ->
    (at2 (get_current_usage s2) h j true <-> qn k < d) /\
    (at2 (get_mask_available_appliances s2) h j true <-> d <= qn k /\ (z <= Z.of_nat k)%Z).
Proof.
  intros n s i s1 rest s2 h j v Hs Hu Hur H1 H2 Hv Hm Ho Hor.
  destruct (occ_cycle_run n s i s1 rest s2 h j v Hs Hu Hur H1 H2 Hv Hm Ho Hor) as (d & Cd & A). exists d. split; [exact Cd|].
  intros z Hz k Hk. rewrite (int_part_unique _ _ _ Hz (trunc_int_part _)) in *. exact (A Hk).
Qed.

(** The full statement fails for the occupancy simulator: a lamp with a cycle
    of two steps is started, nobody leaves, and it is reported in use after one
    step only. *)
Theorem C37_occupancy_refuted : exists s i1 i2 s1 s2 h j v,
  simulates 2 s /\ draws i1 /\ draws i2 /\ sees s h j v /\ may_start i1 h j v /\
  ~ forced_off i1 h v /\ ~ forced_off i2 h v /\
  occ_cycle_length v (i_vol2 i1 h j) 2 /\
  occ_do s i1 = Ok s1 /\ occ_do s1 i2 = Ok s2 /\
  at2 (get_current_usage s1) h j true /\ at2 (get_current_usage s2) h j false.
Proof.
  exists demo, (in_some [1; 1]%Z), (in_some [1; 1]%Z). eexists. eexists. exists 0%nat, 0%nat, (View lamp true 0 0 0 0).
  split.
  { repeat split; intros [|[|h]] row E; unfold at_ in E; simpl in E; try (injection E as <-; reflexivity); destruct h; discriminate. }
  split; [intros h j; simpl; unfold some; destruct (j <? 2)%nat; lra|].
  split; [intros h j; simpl; unfold some; destruct (j <? 2)%nat; lra|].
  split. { repeat split; try reflexivity; eexists; split; reflexivity. }
  split.
  { split; [reflexivity|]. split; [simpl; lra|]. split; [simpl; lia|]. exists 1. split; [|simpl; unfold some; simpl; reflexivity].
    exists 0%nat, 1%Z, [[0; 1]], [0; 1]. repeat split; simpl; lia. }
  split; [intros [H _]; discriminate|]. split; [intros [H _]; discriminate|].
  split; [repeat split; simpl; intros; try discriminate; try lia; reflexivity|].
  split; [vm_compute; reflexivity|]. split; [vm_compute; reflexivity|].
  split; eexists; split; vm_compute; reflexivity.
Qed.

(** Leaving the household ends the cycle of the appliances that need somebody. *)
Theorem C37_forced_off : forall n s i s' h j v,
  simulates n s -> draws i -> occ_do s i = Ok s' -> sees s h j v -> forced_off i h v ->
  at2 (get_current_usage s') h j false.
Proof. exact forced_off_view. Qed.

Example C37_example :
  (exists s', switch_on demo vol0 [(0, 0); (0, 2)]%nat = Ok s' /\
     s_left s' = [[2; 0; 3]; [0; 0; 0]] /\ s_refresh s' = [[5; 0; 4]; [2; 0; 0]]%Z /\
     get_current_usage (after 1 s') = [[true; false; true]; [false; false; false]] /\
     get_current_usage (after 2 s') = [[false; false; true]; [false; false; false]] /\
     get_mask_available_appliances (after 4 s') = [[false; true; true]; [true; false; false]] /\
     get_mask_available_appliances (after 5 s') = [[true; true; true]; [true; false; false]]) /\
  (exists s1 s2, occ_do demo (in_some [1; 1]%Z) = Ok s1 /\ occ_do s1 (in_some [0; 1]%Z) = Ok s2 /\
     get_current_usage s1 = [[true; true; false]; [false; false; false]] /\
     get_current_usage s2 = [[false; true; false]; [false; false; false]] /\
     s_refresh s2 = [[2; 0; 0]; [0; 0; 0]]%Z).
Proof.
  split.
  - eexists. split; [vm_compute; reflexivity|]. repeat split; vm_compute; reflexivity.
  - eexists. eexists. split; [vm_compute; reflexivity|]. split; [vm_compute; reflexivity|]. repeat split; vm_compute; reflexivity.
Qed.

(** ** C38: power *)

Theorem C38_power : forall n s P h j v,
  simulates n s -> get_current_power_consumptions s = Ok P -> sees s h j v ->
  exists p, at2 P h j p /\
    (v_own v = false -> p == 0) /\
    (v_own v = true -> v_left v <= 0 -> p == ap_standby (v_app v)) /\
    (v_own v = true -> 0 < v_left v -> ap_variable (v_app v) = false -> p == ap_power (v_app v)) /\
    (v_own v = true -> 0 < v_left v -> ap_variable (v_app v) = true -> v_left v <= qn (v_dur v) ->
       exists profiles profile z, dget String.eqb (s_loads s) (ap_type (v_app v)) = Some profiles /\
         at_ profiles (v_id v) profile /\ qn z <= qn (v_dur v) - v_left v /\ qn (v_dur v) - v_left v < qn z + 1 /\
         exists q, at_ profile z q /\ p == q).
Proof.
  intros n s P h j v Hs H Hv. destruct (power_at n s P h j v Hs H Hv) as (p & Hp & P1 & P2 & P3 & P4). exists p.
  repeat (split; [assumption|]). intros Ow L Va Ld. destruct (P4 Ow L Va) as (q & Hq & E).
  destruct (load_value_spec s h j v q Hv Hq L Ld) as (pr & pf & z & A1 & A2 & A3 & A4 & A5).
  exists pr, pf, z. repeat (split; [assumption|]). eauto.
Qed.

(** The household demand is the sum over the appliances. *)
Theorem C38_demand : forall n s D, simulates n s -> get_power_demand s = Ok D ->
  exists P, get_current_power_consumptions s = Ok P /\ shaped n (length (s_apps s)) P /\
    forall h x, at_ D h x <-> exists row, at_ P h row /\ x = total row.
Proof.
  intros n s D Hs H. destruct (demand_at s D H) as (P & HP & A). exists P. split; [exact HP|]. split; [exact (power_shape n s P Hs HP)|exact A].
Qed.

(** Demand is not negative when the powers in the data set are not. *)
Theorem C38_nonneg : forall n s D h x, simulates n s -> get_power_demand s = Ok D -> at_ D h x ->
  (forall j a, at_ (s_apps s) j a -> 0 <= ap_standby a /\ 0 <= ap_power a) ->
  (forall ty profiles i profile k q, dget String.eqb (s_loads s) ty = Some profiles -> at_ profiles i profile -> at_ profile k q -> 0 <= q) ->
  (forall h j v, sees s h j v -> 0 < v_left v -> ap_variable (v_app v) = true -> v_left v <= qn (v_dur v)) ->
  0 <= x.
Proof.
  intros n s D h x Hs H Hx Happ Hload Hlim. destruct (demand_at s D H) as (P & HP & A). apply A in Hx. destruct Hx as (row & Hrow & ->).
  rewrite total_qsum. apply qsum_nonneg. apply Forall_forall. intros p Hin. apply in_at in Hin. destruct Hin as [j Hj].
  pose proof (power_shape n s P Hs HP) as [S1 S2].
  assert (Hh : (h < n)%nat) by (apply at_lt in Hrow; lia).
  assert (Hjl : (j < length (s_apps s))%nat) by (apply at_lt in Hj; rewrite (S2 _ _ Hrow) in Hj; exact Hj).
  destruct (simulates_sees n s h j Hs Hh Hjl) as [v Hv].
  destruct (C38_power n s P h j v Hs HP Hv) as (p' & Hp' & P1 & P2 & P3 & P4).
  assert (p' = p) by (eapply at2_fun; [exact Hp'|exists row; auto]). subst p'.
  pose proof Hv as (V1 & _). destruct (Happ j _ V1) as [B1 B2].
  destruct (v_own v).
  - destruct (Qlt_le_dec 0 (v_left v)) as [L|L]; [|rewrite P2 by auto; exact B1].
    destruct (ap_variable (v_app v)) eqn:Ev; [|rewrite P3 by auto; exact B2].
    destruct (P4 eq_refl L eq_refl (Hlim h j v Hv L Ev)) as (pr & pf & z & A1 & A2 & _ & _ & q & A3 & ->). eauto.
  - rewrite P1 by reflexivity. lra.
Qed.

(** The reading succeeds when every running load profile is in the data. *)
Theorem C38_defined : forall n s, simulates n s ->
  (forall h j v, sees s h j v -> v_own v = true -> 0 < v_left v -> ap_variable (v_app v) = true ->
     v_left v <= qn (v_dur v) /\ exists profiles profile, dget String.eqb (s_loads s) (ap_type (v_app v)) = Some profiles /\
       at_ profiles (v_id v) profile /\ (v_dur v <= length profile)%nat) ->
  exists P, get_current_power_consumptions s = Ok P.
Proof. exact power_total. Qed.

Example C38_example : exists s', switch_on demo vol0 [(0, 0); (0, 2)]%nat = Ok s' /\
  (exists P D, get_current_power_consumptions (after 1 s') = Ok P /\ get_power_demand (after 1 s') = Ok D /\
     Forall2 eqQ_list P [[60; 0; 20]; [1; 0; 0]] /\ eqQ_list D [80; 1]) /\
  (exists P, get_current_power_consumptions (after 2 s') = Ok P /\ Forall2 eqQ_list P [[1; 0; 30]; [1; 0; 0]]).
Proof.
  eexists. split; [vm_compute; reflexivity|]. split.
  - eexists. eexists. split; [vm_compute; reflexivity|]. split; [vm_compute; reflexivity|].
    split; repeat constructor; vm_compute; reflexivity.
  - eexists. split; [vm_compute; reflexivity|]. repeat constructor; vm_compute; reflexivity.
Qed.

(** ** C39: which appliances start *)

Theorem C39_only_if : forall n s i s' h j v,
  simulates n s -> draws i -> occ_do s i = Ok s' -> sees s h j v ->
  at2 (get_current_usage s) h j false -> at2 (get_current_usage s') h j true -> may_start i h j v.
Proof. exact start_only_if. Qed.

(** Conversely such an appliance starts its cycle. *)
Theorem C39_if : forall n s i s' h j v,
  simulates n s -> draws i -> occ_do s i = Ok s' -> sees s h j v ->
  may_start i h j v -> ~ forced_off i h v -> exists d w, occ_cycle_length v (i_vol2 i h j) d /\ sees s' h j w /\ same_static v w /\
    down_Q d (v_left w) /\ exists z, int_part (d + inject_Z (ap_delay (v_app v))) z /\ v_refresh w = down_Z z.
Proof.
  intros n s i s' h j v Hs Hu H Hv Hm Ho. destruct (start_if n s i s' h j v Hs Hu H Hv Hm Ho) as (d & w & A1 & A2 & A3 & A4 & A5).
  exists d, w. repeat (split; [assumption|]). eexists. split; [apply trunc_int_part|exact A5].
Qed.

(** All others only count down, or are switched off when nobody is active. *)
Theorem C39_others : forall n s i s' h j v,
  simulates n s -> draws i -> occ_do s i = Ok s' -> sees s h j v ->
  ~ may_start i h j v -> exists w, sees s' h j w /\ same_static v w /\
    (~ forced_off i h v -> down_Q (v_left v) (v_left w) /\ v_refresh w = down_Z (v_refresh v)) /\
    (forced_off i h v -> v_left w == 0 /\ v_refresh w = down_Z (Z.min (v_refresh v) (ap_delay (v_app v)))).
Proof. exact no_start_frame. Qed.

(** A step keeps the shape of the simulation and checks its argument. *)
Theorem C39_shape : forall n s i s', simulates n s -> draws i -> occ_do s i = Ok s' ->
  simulates n s' /\ s_apps s' = s_apps s /\ length (i_occ i) = n.
Proof.
  intros n s i s' Hs Hu H. destruct (occ_step_sees n s i s' Hs Hu H) as (A & B & _). split; [exact A|]. split; [exact B|].
  unfold occ_do, occ_step in H. destruct (Nat.eqb_spec (length (i_occ i)) (length (s_left s))) as [E|]; [|discriminate].
  destruct Hs as (_ & [L _] & _). congruence.
Qed.

Theorem C39_bad_argument : forall n s i, simulates n s -> length (i_occ i) <> n -> occ_do s i = Err AssertionError.
Proof.
  intros n s i (_ & [L _] & _) H. unfold occ_do, occ_step. destruct (Nat.eqb_spec (length (i_occ i)) (length (s_left s))) as [E|]; [congruence|reflexivity].
Qed.

(** Not owned (household 1, tap), in its restart delay (household 1, lamp) or
    with a draw that is too high (machine): no start. *)
Example C39_example : exists s1, occ_do demo (in_some [1; 1]%Z) = Ok s1 /\
  s_left s1 = [[1; 6 # 4; 0]; [0; 0; 0]] /\ s_refresh s1 = [[4; 1; 0]; [1; 0; 0]]%Z /\
  (exists s2, occ_do demo (in_some [1; 0]%Z) = Ok s2 /\ s_left s2 = s_left s1).
Proof. eexists. split; [vm_compute; reflexivity|]. repeat split; try (vm_compute; reflexivity). eexists. split; vm_compute; reflexivity. Qed.

(** ** C40: closest type *)

Theorem C40_found : forall s types t, find_closest_type s types = Some t <-> is_closest s types t.
Proof. exact find_closest_iff. Qed.

Theorem C40_longest : forall s types t, find_closest_type s types = Some t ->
  In t types /\ word_suffix t s /\
  forall t', t' <> EmptyString -> word_suffix t' s -> In t' types -> (String.length t' <= String.length t)%nat.
Proof.
  intros s types t H. apply find_closest_iff in H. destruct H as (H1 & H2 & H3 & H4). split; [exact H3|]. split; [exact H2|].
  intros t' A1 A2 A3. apply word_suffix_length. auto.
Qed.

Theorem C40_not_found : forall s types, find_closest_type s types = None <->
  forall t, t <> EmptyString -> word_suffix t s -> ~ In t types.
Proof. exact find_closest_none. Qed.

(** Parent type: the type without its first word. *)
Theorem C40_remove_start : forall s t, remove_start s = Some t <-> 
  exists w, (forall a b, w <> (a ++ "_" ++ b)%string) /\ s = (w ++ "_" ++ t)%string.
Proof.
  intros s t. rewrite remove_start_some. split; intros (w & H & E); exists w; (split; [|exact E]).
  - intros a b ->. clear E. induction a as [|c a IH]; [discriminate|]. simpl in H. apply andb_true_iff in H. tauto.
  - clear E. induction w as [|c w IH]; [reflexivity|]. simpl. destruct (Ascii.eqb_spec c "_") as [->|Hc].
    + exfalso. exact (H EmptyString w eq_refl).
    + apply IH. intros a b ->. exact (H (String c a) b eq_refl).
Qed.

Open Scope string_scope.
Example C40_example :
  find_closest_type "small_chest_freezer" ["freezer"; "chest_freezer"; "small"] = Some "chest_freezer" /\
  find_closest_type "tv" ["freezer"; "tv_box"] = None /\
  find_closest_type "box_tv" ["freezer"; "tv"] = Some "tv" /\
  find_closest_type "a_" [""; "b"] = None.
Proof. vm_compute. auto. Qed.
Close Scope string_scope.

(** ** C66: hot water *)

(** While a tap runs its cycle the readings deliver the drawn volume minus one
    minute of flow, and nothing when the volume is below one minute of flow. *)
Theorem C66_volume_partial : forall n s i rest states h j v xs,
  simulates n s -> draws i -> (forall i', In i' rest -> draws i') ->
  occ_trace s (i :: rest) = Ok states -> sees s h j v -> may_start i h j v ->
  ~ forced_off i h v -> (forall i', In i' rest -> ~ forced_off i' h v) ->
  ap_water (v_app v) = true -> 0 < ap_flow (v_app v) ->
  Forall2 (fun st x => at2 (occ_water_consumptions st) h j x) states xs ->
  let volume := qn (i_vol2 i h j) in
  volume <= qn (S (length rest)) * ap_flow (v_app v) ->
  (rest = [] \/ qn (length rest) * ap_flow (v_app v) < volume) ->
  (ap_flow (v_app v) <= volume -> total xs + ap_flow (v_app v) == volume) /\
  (volume <= ap_flow (v_app v) -> total xs == 0).
Proof. exact volume_delivered. Qed.

(** The drawn volume is not delivered: 10 litres are drawn from a tap with a
    flow of 4 litres a minute, the readings of the whole cycle sum to 6. *)
Theorem C66_volume_refuted : exists s i1 i2 i3 states xs,
  simulates 2 s /\ draws i1 /\ draws i2 /\ draws i3 /\ sees s 0 1 (View tap true 0 0 0 0) /\
  may_start i1 0 1 (View tap true 0 0 0 0) /\ i_vol2 i1 0%nat 1%nat = 10%nat /\
  occ_trace s [i1; i2; i3] = Ok states /\
  Forall2 (fun st x => at2 (occ_water_consumptions st) 0 1 x) states xs /\
  (forall st, at_ states 2 st -> at2 (get_current_usage st) 0 1 false) /\
  total xs == 6.
Proof.
  exists demo, (in_some [1; 1]%Z), (in_none [1; 1]%Z), (in_none [1; 1]%Z). eexists. exists [16 # 4; 8 # 4; 0 # 4].
  split.
  { repeat split; intros [|[|h]] row E; unfold at_ in E; simpl in E; try (injection E as <-; reflexivity); destruct h; discriminate. }
  split; [intros h j; simpl; unfold some; destruct (j <? 2)%nat; lra|].
  split; [intros h j; simpl; lra|]. split; [intros h j; simpl; lra|].
  split. { repeat split; try reflexivity; eexists; split; reflexivity. }
  split.
  { split; [reflexivity|]. split; [simpl; lra|]. split; [simpl; lia|]. exists 1. split; [|simpl; unfold some; simpl; reflexivity].
    exists 0%nat, 1%Z, [[0; 1]], [0; 1]. repeat split; simpl; lia. }
  split; [reflexivity|]. split; [vm_compute; reflexivity|].
  split; [repeat constructor; eexists; split; vm_compute; reflexivity|].
  split; [|reflexivity]. intros st E. unfold at_ in E. simpl in E. injection E as <-. eexists. split; vm_compute; reflexivity.
Qed.

(** An appliance that is not in a cycle uses no water. *)
Theorem C66_idle : forall s h j v, sees s h j v -> v_left v <= 0 -> exists x, at2 (occ_water_consumptions s) h j x /\ x == 0.
Proof.
  intros s h j v Hv L. eexists. split; [apply (water_at _ _ _ _ _ Hv); reflexivity|].
  destruct (Qle_bool 1 (v_left v)) eqn:E1; [apply Qleb_le in E1; lra|].
  destruct (Qltb 0 (v_left v)) eqn:E2; [apply Qltb_lt in E2; lra|]. simpl. lra.
Qed.

(** The heat demand is 70 W/K for every litre per minute. *)
Theorem C66_heat : forall water, length (dhw_heating_demand water) = length water /\
  forall h row, at_ water h row -> exists x, at_ (dhw_heating_demand water) h x /\ x == 70 * total row.
Proof.
  intros water. split; [apply map_length|]. intros h row Hr. eexists. split; [apply at_map; exists row; split; [exact Hr|reflexivity]|].
  rewrite (total_qsum row). field.
Qed.

Example C66_example : exists l, occ_trace demo [in_some [1; 1]%Z; in_none [1; 1]%Z; in_none [1; 1]%Z] = Ok l /\
  map (fun s => map (map Qred) (occ_water_consumptions s)) l =
    [[[0; 4; 0]; [0; 0; 0]]; [[0; 2; 0]; [0; 0; 0]]; [[0; 0; 0]; [0; 0; 0]]] /\
  map (fun s => map Qred (dhw_heating_demand (occ_water_consumptions s))) l = [[280; 0]; [140; 0]; [0; 0]].
Proof. eexists. split; [vm_compute; reflexivity|]. split; vm_compute; reflexivity. Qed.

(** ** C67: ownership and targets by appliance type *)

Open Scope string_scope.

(** The n-th appliance with closest type t gets the value of "t" (n = 1) or
    "t_n", 0 when that key is missing; appliances without a known type keep the
    default of the appliance dictionary. *)
Theorem C67_values : forall types defaults d out, get_target_from_dict types defaults d = Ok out ->
  length out = length types /\
  forall i s x, at_ types i s -> at_ out i x ->
    ((forall t, ~ is_closest s (map fst d) t) -> at_ defaults i x) /\
    (forall t n, is_closest s (map fst d) t -> nth_of_type types (map fst d) t i n ->
       x = match dget String.eqb d (if Nat.eqb n 1 then t else t ++ "_" ++ decimal n) with Some q => q | None => 0%Q end).
Proof. exact target_spec. Qed.

Theorem C67_defined : forall types defaults d, length defaults = length types ->
  exists out, get_target_from_dict types defaults d = Ok out.
Proof. exact target_total. Qed.

Theorem C67_ownership : get_ownership_from_dict = get_target_from_dict.
Proof. reflexivity. Qed.

Example C67_example :
  get_ownership_from_dict ["hob"; "electric_hob"; "tv"; "old_hob"; "lamp"] [1#10; 2#10; 3#10; 4#10; 5#10]%Q
    [("hob", 9#10)%Q; ("hob_2", 1#20)%Q; ("lamp", 1)%Q] = Ok [9#10; 1#20; 3#10; 0; 1]%Q.
Proof. vm_compute. reflexivity. Qed.

(** ** C68: probabilities of owning several copies *)

Theorem C68_sum : forall p number l, assign_ownership p number "floor" = Ok l ->
  let n := match number with Some n => n | None => p end in
  total l == n /\ at_ l 0 p /\ Forall (fun q => 0 <= q <= 1)%Q l.
Proof. exact assign_sum. Qed.

(** All copies between the first and the last are owned for sure. *)
Theorem C68_middle : forall p number l, assign_ownership p number "floor" = Ok l ->
  forall i x y, (0 < i)%nat -> at_ l i x -> at_ l (S i) y -> x == 1.
Proof. exact assign_shape. Qed.

Theorem C68_domain : forall p number, (exists l, assign_ownership p number "floor" = Ok l) <->
  (let n := match number with Some n => n | None => p end in 0 <= p /\ p <= 1 /\ p <= n)%Q.
Proof. exact assign_ok_iff. Qed.

Theorem C68_error : forall p number algo e, assign_ownership p number algo = Err e -> e = ValueError.
Proof. exact assign_err. Qed.

Example C68_example :
  (exists l, assign_ownership (9#10) (Some (34#10)) "floor" = Ok l /\ map Qred l = [9#10; 1; 1; 1#2]%Q) /\
  (exists l, assign_ownership (9#10) None "floor" = Ok l /\ map Qred l = [9#10; 0]%Q) /\
  assign_ownership (9#10) (Some (1#2)) "floor" = Err ValueError /\
  assign_ownership (9#10) (Some 1) "ceil" = Err ValueError.
Proof. repeat split; try (eexists; split; vm_compute; reflexivity); vm_compute; reflexivity. Qed.

(** ** C69: merging appliance dictionaries *)

Theorem C69_merge : forall A (d1 d2 : app_dict A), NoDup (map fst (fst d1)) ->
  snd (merge_appliance_dict d1 d2) = (snd d1 + snd d2)%Z /\
  forall k, dget String.eqb (fst (merge_appliance_dict d1 d2)) k =
    if String.eqb k "number" then None
    else match dget String.eqb (fst d1) k, dget String.eqb (fst d2) k with
         | Some v1, Some v2 => Some (v1 ++ v2)%list
         | _, _ => None
         end.
Proof. intros A d1 d2 N. split; [reflexivity|]. intro k. exact (merge_spec A d1 d2 k N). Qed.

Example C69_example : merge_appliance_dict ([("type", [1; 2]%nat); ("x", [3; 4]%nat)], 2%Z) ([("y", [1]%nat); ("type", [7]%nat)], 1%Z)
  = ([("type", [1; 2; 7]%nat)], 3%Z).
Proof. vm_compute. reflexivity. Qed.

Print Assumptions C37_parent_cycle.
Print Assumptions C37_occupancy_partial.
Print Assumptions C38_nonneg.
Print Assumptions C39_if.
Print Assumptions C40_found.
Print Assumptions C66_volume_partial.
Print Assumptions C67_values.
Print Assumptions C68_domain.
Print Assumptions C69_merge.
