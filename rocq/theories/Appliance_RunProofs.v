(** * Runs of the occupancy simulator, power and water of the appliances. *)

From Coq Require Import String List ZArith QArith Qround Bool Arith Lia Lqa.
From Verif Require Import Prelude PreludeFacts SpecBase SpecBaseFacts Parse_Model Appliance_Model Appliance_Spec Matrix_Proofs Appliance_Proofs.
Import ListNotations.

Open Scope Q_scope.

Lemma recount_recount : forall v l r l' r', recount (recount v l r) l' r' = recount v l' r'.
Proof. reflexivity. Qed.

Lemma not_off : forall i h v, ~ forced_off i h v -> off_flag i h v = false.
Proof. intros i h v H. destruct (off_flag i h v) eqn:E; [|reflexivity]. apply off_flag_spec in E. contradiction. Qed.

Lemma off_recount : forall i h v l r, forced_off i h (recount v l r) <-> forced_off i h v.
Proof. reflexivity. Qed.

(** The states after each step. *)
Lemma run_cell : forall rest n s s2 h j v d R m, simulates n s -> (forall i, In i rest -> draws i) -> occ_run s rest = Ok s2 ->
  sees s h j (recount v (ticks m d) (rticks m R)) -> (forall i, In i rest -> ~ forced_off i h v) ->
  (rest = [] \/ qn (m + length rest - 1) < d \/ (Z.of_nat (m + length rest - 1) < R)%Z) ->
  simulates n s2 /\ sees s2 h j (recount v (ticks (m + length rest) d) (rticks (m + length rest) R)).
Proof.
  induction rest as [|i rest IH]; intros n s s2 h j v d R m Hs Hu H Hv Hoff Hk.
  - simpl in *. injection H as <-. rewrite Nat.add_0_r. auto.
  - simpl in H. destruct (occ_do s i) as [s1|] eqn:E; simpl in H; [|discriminate].
    destruct (occ_step_sees n s i s1 Hs (Hu i (or_introl eq_refl)) E) as (S1 & _ & A).
    destruct (A h j _ Hv) as (l1 & r1 & Hl & Sn).
    assert (Hbusy : qn m < d \/ (Z.of_nat m < R)%Z).
    { destruct Hk as [Hk|[Hk|Hk]]; [discriminate| |]; simpl in Hk.
      - left. pose proof (qn_le m (m + S (length rest) - 1) ltac:(lia)). lra.
      - right. lia. }
    destruct Hl as [[(M1 & M2 & M3 & _) _]|(_ & -> & ->)].
    + exfalso. simpl in M2, M3. destruct Hbusy as [B|B].
      * apply ticks_pos in B. lra.
      * rewrite rticks_done in M3. lia.
    + rewrite not_off in Sn by (rewrite off_recount; apply Hoff; left; reflexivity). rewrite recount_recount in Sn.
      cbn [v_left v_refresh recount] in Sn.
      specialize (IH n s1 s2 h j v d R (S m) S1 (fun i' Hi => Hu i' (or_intror Hi)) H Sn (fun i' Hi => Hoff i' (or_intror Hi))).
      replace (m + length (i :: rest))%nat with (S m + length rest)%nat by (simpl; lia). apply IH.
      destruct Hk as [Hk|[Hk|Hk]]; [discriminate| |]; simpl length in Hk; replace (m + S (length rest) - 1)%nat with (S m + length rest - 1)%nat in Hk by lia; auto.
Qed.

Lemma occ_cycle : forall n s i s1 h j v, simulates n s -> draws i -> occ_do s i = Ok s1 -> sees s h j v ->
  may_start i h j v -> ~ forced_off i h v ->
  exists d, occ_cycle_length v (i_vol2 i h j) d /\ sees s1 h j (recount v (ticks 1 d) (rticks 1 (refresh_after (v_app v) d))).
Proof.
  intros n s i s1 h j v Hs Hu H Hv Hm Hoff. destruct (occ_step_sees n s i s1 Hs Hu H) as (_ & _ & A).
  destruct (A h j v Hv) as (l1 & r1 & [(_ & d & Cd & -> & ->)|(N & _)] & Sn); [|contradiction].
  exists d. split; [exact Cd|]. rewrite not_off in Sn by assumption. exact Sn.
Qed.

Lemma occ_cycle_run : forall n s i s1 rest s2 h j v, simulates n s -> draws i -> (forall i', In i' rest -> draws i') ->
  occ_do s i = Ok s1 -> occ_run s1 rest = Ok s2 -> sees s h j v -> may_start i h j v ->
  ~ forced_off i h v -> (forall i', In i' rest -> ~ forced_off i' h v) ->
  exists d, occ_cycle_length v (i_vol2 i h j) d /\
    let k := S (length rest) in
    (rest = [] \/ qn (k - 1) < d \/ (Z.of_nat (k - 1) < trunc (d + inject_Z (ap_delay (v_app v))))%Z) ->
    (at2 (get_current_usage s2) h j true <-> qn k < d) /\
    (at2 (get_mask_available_appliances s2) h j true <->
       d <= qn k /\ (trunc (d + inject_Z (ap_delay (v_app v))) <= Z.of_nat k)%Z).
Proof.
  intros n s i s1 rest s2 h j v Hs Hu Hur H1 H2 Hv Hm Ho Hor.
  destruct (occ_cycle n s i s1 h j v Hs Hu H1 Hv Hm Ho) as (d & Cd & Sd). exists d. split; [exact Cd|]. intros k Hk.
  destruct (occ_step_sees n s i s1 Hs Hu H1) as (Hs1 & _ & _).
  destruct (run_cell rest n s1 s2 h j v d _ 1 Hs1 Hur H2 Sd Hor) as (_ & S2); [exact Hk|].
  destruct Hm as (Ow & _). change (1 + length rest)%nat with k in S2. split.
  - rewrite (usage_true _ _ _ _ S2). cbn [v_own v_left recount]. rewrite ticks_pos. tauto.
  - rewrite (mask_true _ _ _ _ S2). cbn [v_own v_left v_refresh recount]. rewrite rticks_done. unfold refresh_after.
    pose proof (ticks_pos k d) as T. split; intros P.
    + destruct P as (_ & P2 & P3). split; [|exact P3]. apply Qnot_lt_le. intro L. apply T in L. lra.
    + destruct P as (P2 & P3). split; [exact Ow|]. split; [|exact P3]. apply Qnot_lt_le. intro L. apply T in L. lra.
Qed.

(** ** C39 *)

Lemma tick_left_le : forall l, 0 < tick_left l -> 0 < l /\ tick_left l == l - 1.
Proof.
  intros l. unfold tick_left. destruct (Qltb 0 l) eqn:E.
  - apply Qltb_lt in E. intros. split; [assumption|reflexivity].
  - apply Qltb_ge in E. intro. lra.
Qed.

Lemma start_only_if : forall n s i s' h j v, simulates n s -> draws i -> occ_do s i = Ok s' -> sees s h j v ->
  at2 (get_current_usage s) h j false -> at2 (get_current_usage s') h j true -> may_start i h j v.
Proof.
  intros n s i s' h j v Hs Hu H Hv U0 U1. destruct (occ_step_sees n s i s' Hs Hu H) as (_ & _ & A).
  destruct (A h j v Hv) as (l1 & r1 & [(M & _)|(N & -> & ->)] & Sn); [exact M|]. exfalso.
  apply (usage_true _ _ _ _ Sn) in U1. simpl in U1. destruct U1 as [Ow L].
  apply tick_left_le in L. destruct L as [L _].
  apply (usage_at _ _ _ _ _ Hv) in U0. rewrite Ow in U0.
  destruct (Qltb 0 (v_left v)) eqn:E; [discriminate|]. apply Qltb_ge in E. destruct (off_flag i h v); lra.
Qed.

Lemma start_if : forall n s i s' h j v, simulates n s -> draws i -> occ_do s i = Ok s' -> sees s h j v ->
  may_start i h j v -> ~ forced_off i h v -> exists d w, occ_cycle_length v (i_vol2 i h j) d /\ sees s' h j w /\ same_static v w /\
    down_Q d (v_left w) /\ v_refresh w = down_Z (trunc (d + inject_Z (ap_delay (v_app v)))).
Proof.
  intros n s i s' h j v Hs Hu H Hv Hm Ho. destruct (occ_cycle n s i s' h j v Hs Hu H Hv Hm Ho) as (d & Cd & Sd).
  exists d. eexists. split; [exact Cd|]. split; [exact Sd|]. split; [apply recount_static|]. simpl. split.
  - unfold tick_left. destruct (Qltb 0 d) eqn:E; [apply Qltb_lt in E|apply Qltb_ge in E]; split; intro; lra.
  - unfold tick_refresh, down_Z, refresh_after. destruct (Z.ltb_spec 0 (trunc (d + inject_Z (ap_delay (v_app v))))); lia.
Qed.

Lemma no_start_frame : forall n s i s' h j v, simulates n s -> draws i -> occ_do s i = Ok s' -> sees s h j v ->
  ~ may_start i h j v -> exists w, sees s' h j w /\ same_static v w /\
    (~ forced_off i h v -> down_Q (v_left v) (v_left w) /\ v_refresh w = down_Z (v_refresh v)) /\
    (forced_off i h v -> v_left w == 0 /\ v_refresh w = down_Z (Z.min (v_refresh v) (ap_delay (v_app v)))).
Proof.
  intros n s i s' h j v Hs Hu H Hv Hm. destruct (occ_step_sees n s i s' Hs Hu H) as (_ & _ & A).
  destruct (A h j v Hv) as (l1 & r1 & [(M & _)|(N & -> & ->)] & Sn); [contradiction|].
  eexists. split; [exact Sn|]. split; [apply recount_static|]. simpl.
  assert (D : forall z, tick_refresh z = down_Z z). { intro z. unfold tick_refresh, down_Z. destruct (Z.ltb_spec 0 z); lia. }
  split; intro F.
  - rewrite (not_off _ _ _ F). split; [|apply D]. unfold tick_left.
    destruct (Qltb 0 (v_left v)) eqn:E; [apply Qltb_lt in E|apply Qltb_ge in E]; split; intro; lra.
  - apply off_flag_spec in F. rewrite F. split; [reflexivity|apply D].
Qed.

Lemma forced_off_view : forall n s i s' h j v, simulates n s -> draws i -> occ_do s i = Ok s' -> sees s h j v ->
  forced_off i h v -> at2 (get_current_usage s') h j false.
Proof.
  intros n s i s' h j v Hs Hu H Hv F. destruct (occ_step_sees n s i s' Hs Hu H) as (_ & _ & A).
  destruct (A h j v Hv) as (l1 & r1 & _ & Sn). apply off_flag_spec in F. rewrite F in Sn.
  apply (usage_at _ _ _ _ _ Sn). reflexivity.
Qed.

(** ** C38: power *)

Lemma b2q_true : b2q true = 1. Proof. reflexivity. Qed.

Lemma variable_loads_at : forall s usage P h j v u, variable_loads_of usage s = Ok P -> sees s h j v -> at2 usage h j u ->
  exists p, at2 P h j p /\ (if u && ap_variable (v_app v) then load_value s h j (v_app v) (v_left v) = Ok p else p = 0).
Proof.
  intros s usage P h j v u H Hv U. unfold variable_loads_of in H. pose proof Hv as (V1 & V2 & V3 & V4 & V5 & V6).
  destruct (mapM_ok _ _ _ _ _ H) as [_ K].
  assert (Hh : (h < length (s_left s))%nat). { destruct V3 as (r & Hr & _). eapply at_lt; exact Hr. }
  destruct (K h h) as (row & Hrow & Er). { apply at_seq. split; [exact Hh|lia]. }
  destruct (vget usage h) as [us|] eqn:Eu; simpl in Er; [|discriminate]. apply vget_ok in Eu.
  destruct (mapM_ok _ _ _ _ _ Er) as [_ K2]. destruct (K2 j j) as (p & Hp & Ep). { apply at_seq. split; [eapply at_lt; exact V1|lia]. }
  exists p. split; [exists row; auto|].
  apply vget_ok in V1. rewrite V1 in Ep. simpl in Ep. destruct (vget us j) as [used|] eqn:Ej; simpl in Ep; [|discriminate].
  apply vget_ok in Ej. assert (U' : at2 usage h j used) by (exists us; auto).
  rewrite (at2_fun _ _ _ _ _ _ U U'). destruct (used && ap_variable (v_app v)).
  - apply mget_ok in V3. rewrite V3 in Ep. exact Ep.
  - congruence.
Qed.

Lemma power_of_at : forall s usage P h j v u, power_of usage s = Ok P -> sees s h j v -> at2 usage h j u ->
  exists p, at2 P h j p /\
    (u = false -> p == b2q (v_own v) * ap_standby (v_app v)) /\
    (u = true -> ap_variable (v_app v) = false -> p == ap_power (v_app v)) /\
    (u = true -> ap_variable (v_app v) = true -> exists q, load_value s h j (v_app v) (v_left v) = Ok q /\ p == q).
Proof.
  intros s usage P h j v u H Hv U. unfold power_of in H.
  destruct (variable_loads_of usage s) as [VL|] eqn:EV; simpl in H; [|discriminate]. injection H as <-.
  destruct (variable_loads_at s usage VL h j v u EV Hv U) as (q & Hq & Cq).
  pose proof Hv as (V1 & V2 & V3 & V4 & V5 & V6).
  exists (b2q (negb u) * ap_standby (v_app v) * b2q (v_own v) + b2q u * ap_power (v_app v) * b2q (negb (ap_variable (v_app v))) + q).
  split.
  { apply at2_mmap2. eexists _, q. split; [|split; [exact Hq|reflexivity]].
    apply at2_mmap2. eexists _, _. split; [|split; [|reflexivity]].
    - apply at2_mmap2. eexists _, (b2q (v_own v)). split; [apply at2_mrow; eexists _, _; split; [exact U|split; [exact V1|reflexivity]]|].
      split; [apply at2_map; eauto|reflexivity].
    - apply at2_mrow. eexists _, _. split; [exact U|split; [exact V1|reflexivity]]. }
  destruct u; simpl in *.
  - split; [discriminate|]. destruct (ap_variable (v_app v)) eqn:Ev; simpl in *.
    + split; [discriminate|]. intros _ _. exists q. split; [exact Cq|lra].
    + subst q. split; [intros; lra|discriminate].
  - subst q. split; [intros; lra|]. split; discriminate.
Qed.

Lemma power_at : forall n s P h j v, simulates n s -> get_current_power_consumptions s = Ok P -> sees s h j v ->
  exists p, at2 P h j p /\
    (v_own v = false -> p == 0) /\
    (v_own v = true -> v_left v <= 0 -> p == ap_standby (v_app v)) /\
    (v_own v = true -> 0 < v_left v -> ap_variable (v_app v) = false -> p == ap_power (v_app v)) /\
    (v_own v = true -> 0 < v_left v -> ap_variable (v_app v) = true ->
       exists q, load_value s h j (v_app v) (v_left v) = Ok q /\ p == q).
Proof.
  intros n s P h j v Hs H Hv. unfold get_current_power_consumptions in H.
  assert (U : at2 (get_current_usage s) h j (Qltb 0 (v_left v) && v_own v)) by (apply (usage_at _ _ _ _ _ Hv); reflexivity).
  destruct (power_of_at _ _ _ _ _ _ _ H Hv U) as (p & Hp & P1 & P2 & P3). exists p. split; [exact Hp|].
  destruct (v_own v) eqn:Eo; destruct (Qltb 0 (v_left v)) eqn:El; simpl in *;
    [apply Qltb_lt in El|apply Qltb_ge in El| |].
  - split; [discriminate|]. split; [intros; lra|]. split; auto.
  - split; [discriminate|]. specialize (P1 eq_refl). split; [intros; lra|]. split; intros; lra.
  - specialize (P1 eq_refl). split; [intros; lra|]. repeat split; discriminate.
  - specialize (P1 eq_refl). split; [intros; lra|]. repeat split; discriminate.
Qed.

Lemma power_of_shape : forall n s usage P, simulates n s -> shaped n (length (s_apps s)) usage -> power_of usage s = Ok P ->
  shaped n (length (s_apps s)) P.
Proof.
  intros n s usage P (H1 & H2 & H3 & H4 & H5) SU H. unfold power_of in H.
  destruct (variable_loads_of usage s) as [VL|] eqn:EV; simpl in H; [|discriminate]. injection H as <-.
  assert (SV : shaped n (length (s_apps s)) VL).
  { unfold variable_loads_of in EV. destruct (mapM_ok _ _ _ _ _ EV) as [L K]. rewrite seq_length in L. split; [destruct H2; lia|].
    intros h row Hr. pose proof (at_lt _ _ _ _ Hr) as Hl. rewrite L in Hl.
    destruct (K h h) as (row' & Hr' & E); [apply at_seq; lia|]. unfold at_ in Hr. rewrite Hr in Hr'. injection Hr' as <-.
    destruct (vget usage h) as [us|]; simpl in E; [|discriminate].
    destruct (mapM_ok _ _ _ _ _ E) as [L2 _]. rewrite seq_length in L2. exact L2. }
  apply shaped_mmap2; [|exact SV]. apply shaped_mmap2.
  - apply shaped_mmap2; [apply shaped_mrow; auto|apply shaped_map; assumption].
  - apply shaped_mrow; auto.
Qed.

Lemma usage_shape : forall n s, simulates n s -> shaped n (length (s_apps s)) (get_current_usage s).
Proof. intros n s (H1 & H2 & _). apply shaped_mmap2; [apply shaped_map|]; assumption. Qed.

Lemma power_shape : forall n s P, simulates n s -> get_current_power_consumptions s = Ok P -> shaped n (length (s_apps s)) P.
Proof. intros n s P Hs H. eapply power_of_shape; [exact Hs|apply usage_shape; exact Hs|exact H]. Qed.

Lemma demand_at : forall s D, get_power_demand s = Ok D -> exists P, get_current_power_consumptions s = Ok P /\
  forall h x, at_ D h x <-> exists row, at_ P h row /\ x = total row.
Proof.
  intros s D H. unfold get_power_demand in H. destruct (get_current_power_consumptions s) as [P|]; simpl in H; [|discriminate].
  injection H as <-. exists P. split; [reflexivity|]. intros h x. rewrite at_map. split; intros (row & H1 & ->); exists row; (split; [exact H1|]); [symmetry|]; apply total_qsum.
Qed.

Lemma load_value_spec : forall s h j v q, sees s h j v -> load_value s h j (v_app v) (v_left v) = Ok q ->
  0 < v_left v -> v_left v <= qn (v_dur v) ->
  exists profiles profile z, dget String.eqb (s_loads s) (ap_type (v_app v)) = Some profiles /\ at_ profiles (v_id v) profile /\
    inject_Z (Z.of_nat z) <= qn (v_dur v) - v_left v /\ qn (v_dur v) - v_left v < inject_Z (Z.of_nat z) + 1 /\ at_ profile z q.
Proof.
  intros s h j v q (V1 & V2 & V3 & V4 & V5 & V6) H L0 L1. unfold load_value in H.
  destruct (dget String.eqb (s_loads s) (ap_type (v_app v))) as [profiles|]; [|discriminate].
  apply mget_ok in V6. rewrite V6 in H. simpl in H. apply mget_ok in V5. rewrite V5 in H. simpl in H.
  destruct (vget profiles (v_id v)) as [profile|] eqn:Ep; simpl in H; [|discriminate]. apply vget_ok in Ep.
  fold (qn (v_dur v)) in H.
  destruct (trunc_nonneg (qn (v_dur v) - v_left v)) as [T1 T2]; [lra|]. set (t := trunc (qn (v_dur v) - v_left v)) in *.
  assert (T0 : (0 <= t)%Z). { assert (inject_Z (-1) < inject_Z t) by (change (inject_Z (-1)) with (-1); lra). rewrite <- Zlt_Qlt in H0. lia. }
  unfold py_index in H. destruct (Z.leb_spec 0 t); [|lia]. destruct (Z.ltb_spec t (Z.of_nat (length profile))); simpl in H; [|discriminate].
  apply vget_ok in H. exists profiles, profile, (Z.to_nat t). rewrite Z2Nat.id by lia. auto 10.
Qed.

Lemma load_value_total : forall s h j v profiles profile, sees s h j v -> 0 < v_left v -> v_left v <= qn (v_dur v) ->
  dget String.eqb (s_loads s) (ap_type (v_app v)) = Some profiles -> at_ profiles (v_id v) profile -> (v_dur v <= length profile)%nat ->
  exists q, load_value s h j (v_app v) (v_left v) = Ok q.
Proof.
  intros s h j v profiles profile (V1 & V2 & V3 & V4 & V5 & V6) U Ll P1 P2 P3.
  unfold load_value. rewrite P1. apply mget_ok in V6. rewrite V6. simpl.
  apply mget_ok in V5. rewrite V5. simpl. apply vget_ok in P2. rewrite P2. simpl. fold (qn (v_dur v)).
  destruct (trunc_nonneg (qn (v_dur v) - v_left v)) as [T1 T2]; [lra|]. set (t := trunc (qn (v_dur v) - v_left v)) in *.
  assert (T0 : (0 <= t)%Z). { assert (inject_Z (-1) < inject_Z t) by (change (inject_Z (-1)) with (-1); lra). rewrite <- Zlt_Qlt in H. lia. }
  assert (T3 : (t < Z.of_nat (v_dur v))%Z). { assert (inject_Z t < inject_Z (Z.of_nat (v_dur v))) by (fold (qn (v_dur v)); lra).
    now rewrite <- Zlt_Qlt in H. }
  unfold py_index. destruct (Z.leb_spec 0 t); [|lia]. destruct (Z.ltb_spec t (Z.of_nat (length profile))); [|lia]. simpl.
  destruct (lt_at _ profile (Z.to_nat t)) as [x Hx]; [lia|]. apply vget_ok in Hx. rewrite Hx. eauto.
Qed.

Lemma power_of_total : forall n s usage, simulates n s -> shaped n (length (s_apps s)) usage ->
  (forall h j v, sees s h j v -> at2 usage h j true -> ap_variable (v_app v) = true -> exists q, load_value s h j (v_app v) (v_left v) = Ok q) ->
  exists P, power_of usage s = Ok P.
Proof.
  intros n s usage Hs SU Hload. unfold power_of.
  destruct (variable_loads_of usage s) as [VL|e] eqn:EV; simpl; [eauto|]. exfalso.
  assert (T : exists out, variable_loads_of usage s = Ok out); [|destruct T; congruence].
  clear EV. unfold variable_loads_of. pose proof Hs as (H1 & H2 & H3 & H4 & H5).
  apply mapM_total. intros h Hh. apply in_seq in Hh.
  assert (Hn : (h < n)%nat) by (destruct H2; lia).
  destruct (lt_at _ usage h) as [us Hus]; [destruct SU; lia|]. apply vget_ok in Hus. rewrite Hus. simpl.
  apply mapM_total. intros j Hj. apply in_seq in Hj. destruct (simulates_sees n s h j Hs Hn ltac:(lia)) as [v Hv].
  pose proof Hv as (V1 & V2 & V3 & V4 & V5 & V6). apply vget_ok in V1. rewrite V1. simpl.
  apply vget_ok in Hus. destruct SU as [SU1 SU2]. destruct (lt_at _ us j) as [u Hu]; [rewrite (SU2 _ _ Hus); lia|].
  assert (U : at2 usage h j u) by (exists us; auto).
  apply vget_ok in Hu. rewrite Hu. simpl. destruct (u && ap_variable (v_app v)) eqn:Eu; [|eauto].
  apply andb_true_iff in Eu. destruct Eu as [-> Ev]. apply mget_ok in V3. rewrite V3. simpl. eauto.
Qed.

Lemma power_total : forall n s, simulates n s ->
  (forall h j v, sees s h j v -> v_own v = true -> 0 < v_left v -> ap_variable (v_app v) = true ->
     v_left v <= qn (v_dur v) /\ exists profiles profile, dget String.eqb (s_loads s) (ap_type (v_app v)) = Some profiles /\
       at_ profiles (v_id v) profile /\ (v_dur v <= length profile)%nat) ->
  exists P, get_current_power_consumptions s = Ok P.
Proof.
  intros n s Hs Hload. apply (power_of_total n); [exact Hs|apply usage_shape; exact Hs|].
  intros h j v Hv U Ev. apply (usage_true _ _ _ _ Hv) in U. destruct U as [Ow U].
  destruct (Hload h j v Hv Ow U Ev) as (Ll & profiles & profile & P1 & P2 & P3).
  eapply load_value_total; eauto.
Qed.

(** ** Water *)

Definition clip (l : Q) : Q := b2q (Qle_bool 1 l) + l * b2q (Qltb 0 l && Qltb l 1).
Definition pos (l : Q) : Q := if Qltb 0 l then l else 0.

Lemma clip_pos : forall l, clip l + pos (tick_left l) == pos l.
Proof.
  intro l. unfold clip, pos, tick_left.
  destruct (Qltb 0 l) eqn:E2; [|rewrite E2]; destruct (Qle_bool 1 l) eqn:E1; destruct (Qltb l 1) eqn:E3;
    try (destruct (Qltb 0 (l - 1)) eqn:E4); simpl;
    rewrite ?Qleb_le, ?Qleb_gt, ?Qltb_lt, ?Qltb_ge in *; lra.
Qed.

Fixpoint clip_sum (m k : nat) (d : Q) : Q := match k with O => 0 | S k => clip (ticks m d) + clip_sum (S m) k d end.
Lemma clip_sum_val : forall k m d, clip_sum m k d + pos (ticks (m + k) d) == pos (ticks m d).
Proof.
  induction k as [|k IH]; intros m d; simpl.
  - rewrite Nat.add_0_r. lra.
  - rewrite Nat.add_succ_r. specialize (IH (S m) d). cbn [ticks Nat.add] in *. pose proof (clip_pos (ticks m d)). lra.
Qed.

Lemma water_at : forall s h j v x, sees s h j v -> (at2 (occ_water_consumptions s) h j x <->
  x = b2q (Qle_bool 1 (v_left v)) * ap_flow (v_app v) + v_left v * b2q (Qltb 0 (v_left v) && Qltb (v_left v) 1) * ap_flow (v_app v)).
Proof.
  intros s h j v x (V1 & V2 & V3 & _). unfold occ_water_consumptions. rewrite at2_mrow. split.
  - intros (l & a & H1 & H2 & ->). rewrite (at2_fun _ _ _ _ _ _ H1 V3), (at_fun _ _ _ _ _ H2 V1). reflexivity.
  - intros ->. exists (v_left v), (v_app v). auto.
Qed.

Lemma trace_cell : forall rest n s states h j v d R m, simulates n s -> (forall i, In i rest -> draws i) -> occ_trace s rest = Ok states ->
  sees s h j (recount v (ticks m d) (rticks m R)) -> (forall i, In i rest -> ~ forced_off i h v) ->
  (rest = [] \/ qn (m + length rest - 1) < d \/ (Z.of_nat (m + length rest - 1) < R)%Z) ->
  length states = length rest /\
  forall k st, at_ states k st -> sees st h j (recount v (ticks (S m + k) d) (rticks (S m + k) R)).
Proof.
  induction rest as [|i rest IH]; intros n s states h j v d R m Hs Hu H Hv Hoff Hk.
  - simpl in H. injection H as <-. split; [reflexivity|]. intros [|k] st E; discriminate.
  - simpl in H. destruct (occ_do s i) as [s1|] eqn:E; simpl in H; [|discriminate].
    destruct (occ_trace s1 rest) as [sts|] eqn:Et; simpl in H; [|discriminate]. injection H as <-.
    assert (Hsub : qn m < d \/ (Z.of_nat m < R)%Z).
    { destruct Hk as [Hk|[Hk|Hk]]; [discriminate| |]; simpl in Hk.
      - left. pose proof (qn_le m (m + S (length rest) - 1) ltac:(lia)). lra.
      - right. lia. }
    assert (R1 : occ_run s [i] = Ok s1) by (simpl; rewrite E; reflexivity).
    destruct (run_cell [i] n s s1 h j v d R m Hs) as (S1 & V1); auto.
    { intros i' [<-|[]]. apply Hu. left. reflexivity. }
    { intros i' [<-|[]]. apply Hoff. left. reflexivity. }
    { right. simpl. replace (m + 1 - 1)%nat with m by lia. exact Hsub. }
    simpl length in V1. replace (m + 1)%nat with (S m) in V1 by lia.
    destruct (IH n s1 sts h j v d R (S m) S1 (fun i' Hi => Hu i' (or_intror Hi)) Et V1 (fun i' Hi => Hoff i' (or_intror Hi))) as [L A].
    { destruct Hk as [Hk|[Hk|Hk]]; [discriminate| |]; simpl length in Hk;
        replace (m + S (length rest) - 1)%nat with (S m + length rest - 1)%nat in Hk by lia; auto. }
    split; [simpl; congruence|]. intros [|k] st Hst.
    + unfold at_ in Hst. simpl in Hst. injection Hst as <-. rewrite Nat.add_0_r. exact V1.
    + replace (S m + S k)%nat with (S (S m) + k)%nat by lia. apply A. exact Hst.
Qed.

Lemma readings_sum : forall states xs h j v d R m,
  (forall k st, at_ states k st -> sees st h j (recount v (ticks (m + k) d) (rticks (m + k) R))) ->
  Forall2 (fun st x => at2 (occ_water_consumptions st) h j x) states xs ->
  total xs == clip_sum m (length states) d * ap_flow (v_app v).
Proof.
  induction states as [|st states IH]; intros xs h j v d R m A F; inversion F as [|? x ? xs' Hx F']; subst.
  - simpl. lra.
  - pose proof (A 0%nat st eq_refl) as V0. rewrite Nat.add_0_r in V0. apply (water_at _ _ _ _ _ V0) in Hx.
    specialize (IH xs' h j v d R (S m)). simpl. rewrite IH; [|intros k st' Hst; specialize (A (S k) st' Hst); rewrite Nat.add_succ_r in A; exact A|exact F'].
    rewrite Hx. cbn [v_left v_app recount]. unfold clip. ring.
Qed.

Lemma volume_delivered : forall n s i rest states h j v xs, simulates n s -> draws i -> (forall i', In i' rest -> draws i') ->
  occ_trace s (i :: rest) = Ok states -> sees s h j v -> may_start i h j v ->
  ~ forced_off i h v -> (forall i', In i' rest -> ~ forced_off i' h v) ->
  ap_water (v_app v) = true -> 0 < ap_flow (v_app v) ->
  Forall2 (fun st x => at2 (occ_water_consumptions st) h j x) states xs ->
  let volume := qn (i_vol2 i h j) in
  volume <= qn (S (length rest)) * ap_flow (v_app v) ->
  (rest = [] \/ qn (length rest) * ap_flow (v_app v) < volume) ->
  (ap_flow (v_app v) <= volume -> total xs + ap_flow (v_app v) == volume) /\
  (volume <= ap_flow (v_app v) -> total xs == 0).
Proof.
  intros n s i rest states h j v xs Hs Hu Hur H Hv Hm Ho Hor Hw Hf F volume Hend Hbusy.
  simpl in H. destruct (occ_do s i) as [s1|] eqn:E; simpl in H; [|discriminate].
  destruct (occ_trace s1 rest) as [sts|] eqn:Et; simpl in H; [|discriminate]. injection H as <-.
  destruct (occ_cycle n s i s1 h j v Hs Hu E Hv Hm Ho) as (d & Cd & Sd).
  destruct (occ_step_sees n s i s1 Hs Hu E) as (Hs1 & _ & _).
  destruct Cd as (Cw & _). specialize (Cw Hw). fold (qn (i_vol2 i h j)) in Cw. fold volume in Cw.
  assert (Hbusy' : rest = [] \/ qn (1 + length rest - 1) < d \/ (Z.of_nat (1 + length rest - 1) < refresh_after (v_app v) d)%Z).
  { destruct Hbusy as [B|B]; [auto|]. right. left. replace (1 + length rest - 1)%nat with (length rest) by lia.
    apply Qnot_le_lt. intro L. nra. }
  destruct (trace_cell rest n s1 sts h j v d _ 1 Hs1 Hur Et Sd Hor Hbusy') as [L A].
  assert (Sum : total xs == clip_sum 1 (length (s1 :: sts)) d * ap_flow (v_app v)).
  { apply (readings_sum (s1 :: sts) xs h j v d (refresh_after (v_app v) d) 1); [|exact F]. intros [|k] st Hst.
    - unfold at_ in Hst. simpl in Hst. injection Hst as <-. exact Sd.
    - replace (1 + S k)%nat with (2 + k)%nat by lia. apply A. exact Hst. }
  pose proof (clip_sum_val (length (s1 :: sts)) 1 d) as CV.
  assert (Pend : pos (ticks (1 + length (s1 :: sts)) d) == 0).
  { unfold pos. destruct (Qltb 0 (ticks (1 + length (s1 :: sts)) d)) eqn:Ep; [|reflexivity]. apply Qltb_lt in Ep. apply ticks_pos in Ep.
    simpl length in Ep. rewrite L in Ep. exfalso. pose proof (qn_le (S (length rest)) (1 + S (length rest)) ltac:(lia)).
    assert (d <= qn (S (length rest))); [|lra]. apply Qnot_lt_le. intro X. nra. }
  rewrite Pend in CV. rewrite Sum. cbn [ticks] in CV.
  assert (D0 : 0 <= d). { apply Qnot_lt_le. intro X. pose proof (qn_nonneg (i_vol2 i h j)). fold volume in H. nra. }
  assert (P1 : (1 <= d -> pos (tick_left d) == d - 1) /\ (d <= 1 -> pos (tick_left d) == 0)).
  { unfold pos, tick_left. destruct (Qltb 0 d) eqn:E0; rewrite ?Qltb_lt, ?Qltb_ge in E0.
    - destruct (Qltb 0 (d - 1)) eqn:E1; rewrite ?Qltb_lt, ?Qltb_ge in E1; split; intro; lra.
    - destruct (Qltb 0 d) eqn:E1; rewrite ?Qltb_lt, ?Qltb_ge in E1; split; intro; lra. }
  destruct P1 as [P1 P2]. split; intro Hv1.
  - assert (1 <= d). { apply Qnot_lt_le. intro X. nra. }
    assert (X : clip_sum 1 (length (s1 :: sts)) d == d - 1) by (rewrite <- P1 by assumption; lra). rewrite X. lra.
  - assert (d <= 1). { apply Qnot_lt_le. intro X. nra. }
    assert (X : clip_sum 1 (length (s1 :: sts)) d == 0) by (rewrite <- P2 by assumption; lra). rewrite X. lra.
Qed.
