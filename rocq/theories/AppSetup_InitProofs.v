(** * Proofs about the initial state of the appliances. *)

From Coq Require Import String List ZArith QArith Bool Arith Lia Lqa.
From Verif Require Import Prelude PreludeFacts SpecBase SpecBaseFacts Parse_Model Appliance_Model Appliance_Spec AppSetup_Model AppSetup_Spec.
From Verif Require Import Matrix_Proofs Appliance_Proofs Appliance_RunProofs Appliance_TypeProofs AppSetup_Proofs.
Import ListNotations.
Local Open Scope nat_scope.

Lemma left_cells : forall related durs start left n, shaped n (length related) durs -> initial_left related durs start = Ok left ->
  shaped n (length related) left /\
  forall h j d r, at2 durs h j d -> at_ related j r -> exists x, at2 left h j x /\
    (whole_day r -> 0 < d -> 1 < d /\ x = qn (start h j)) /\ (~ (whole_day r /\ 0 < d) -> x = 0%Q).
Proof.
  unfold initial_left. intros related durs start left n S H. destruct (mapM_at _ _ _ _ _ H) as [L A]. rewrite seq_length in L.
  assert (R : forall h row, at_ left h row -> exists drow, at_ durs h drow /\
     mapM (fun j => bind (vget drow j) (fun d => bind (vget related j) (fun act =>
      if (0 <? d) && always_on act then if 1 <? d then Ok (inject_Z (Z.of_nat (start h j))) else Err ValueError else Ok 0%Q)))
      (seq 0 (length related)) = Ok row).
  { intros h row E. apply A in E. destruct E as (h' & Eh & F). apply at_seq in Eh. destruct Eh as (_ & ->). simpl in F.
    destruct (vget durs h) as [drow|] eqn:V; [|discriminate]. apply vget_ok in V. simpl in F. exists drow. auto. }
  split.
  - split; [rewrite L; apply S|]. intros h row E. destruct (R h row E) as (drow & _ & M). apply mapM_at in M. rewrite (proj1 M). apply seq_length.
  - intros h j d r Ed Er. destruct Ed as (drow & E1 & E2). assert (Lh : h < length left).
    { rewrite L. apply nth_error_Some. unfold at_ in E1. congruence. }
    destruct (nth_error left h) as [row|] eqn:Er'; [|apply nth_error_None in Er'; lia].
    destruct (R h row Er') as (drow' & E1' & M). assert (drow' = drow) by (unfold at_ in *; congruence). subst drow'.
    assert (Lj : j < length related) by (apply nth_error_Some; unfold at_ in Er; congruence).
    destruct (mapM_ok _ _ _ _ _ M) as [_ M2]. destruct (M2 j j) as (x & Ex & F); [apply at_seq; auto|].
    apply vget_ok in E2. apply vget_ok in Er. rewrite E2, Er in F. cbn [bind] in F.
    exists x. split; [exists row; auto|].
    destruct (Nat.ltb_spec 0 d) as [Pd|Pd]; destruct (always_on r) eqn:Ar; simpl in F.
    + destruct (Nat.ltb_spec 1 d) as [Qd|]; [|discriminate]. injection F as <-. apply always_on_spec in Ar. split; [auto|]. intro N. exfalso. apply N. auto.
    + injection F as <-. apply not_whole in Ar. split; [contradiction|auto].
    + injection F as <-. split; [lia|auto].
    + injection F as <-. split; [lia|auto].
Qed.

Lemma left_total : forall related durs start n, shaped n (length related) durs ->
  (forall h j d r, at2 durs h j d -> at_ related j r -> whole_day r -> d <> 1) -> exists left, initial_left related durs start = Ok left.
Proof.
  unfold initial_left. intros related durs start n S N. apply mapM_total. intros h Hh. apply in_seq in Hh.
  destruct (nth_error durs h) as [drow|] eqn:E; [|apply nth_error_None in E; lia].
  unfold vget at 1. rewrite E. cbn [bind]. apply mapM_total. intros j Hj. apply in_seq in Hj.
  destruct (nth_error drow j) as [d|] eqn:Ed; [|apply nth_error_None in Ed; rewrite (proj2 S h drow E) in Ed; lia].
  destruct (nth_error related j) as [r|] eqn:Er; [|apply nth_error_None in Er; lia].
  unfold vget. rewrite Ed, Er. cbn [bind]. destruct (Nat.ltb_spec 0 d) as [Pd|Pd]; destruct (always_on r) eqn:Ar; simpl; eauto.
  destruct (Nat.ltb_spec 1 d) as [Qd|]; eauto. exfalso. apply always_on_spec in Ar. apply (N h j d r); auto; [exists drow; auto|lia].
Qed.

Lemma refresh_at : forall n apps wait h j a, h < n -> at_ apps j a ->
  at2 (initial_refresh n apps wait) h j (if Z.ltb 0 (ap_delay a) then wait h j else 0%Z).
Proof.
  intros n apps wait h j a Lh Ea. eexists. split; [apply at_map; exists h; split; [apply at_seq; auto|reflexivity]|].
  apply at_map2. exists j, a. repeat split; [|exact Ea]. apply at_seq. split; [|reflexivity]. apply nth_error_Some. unfold at_ in Ea. congruence.
Qed.

Lemma refresh_shape : forall n apps wait, shaped n (length apps) (initial_refresh n apps wait).
Proof.
  intros. split; [unfold initial_refresh; rewrite map_length, seq_length; reflexivity|]. intros h row E. apply at_map in E. destruct E as (x & _ & ->).
  rewrite map2_length, seq_length. lia.
Qed.

Section Make.
  Variable first_left : loads -> result (list (list Q)).
  Variables (apps : list app) (related : list string) (own : list (list bool)) (algo : profiles_algo) (sw fu : result real_loads).
  Variables (p1 p2 : nat -> nat -> nat) (wait : nat -> nat -> Z) (n : nat).
  Hypothesis Lr : length related = length apps.
  Hypothesis So : shaped n (length apps) own.

  Lemma variable_length : forall L, sample_real_load_profiles algo own (map ap_type apps) related sw fu p1 p2 = Ok L ->
    length (l_variable L) = length apps.
  Proof.
    intros L H. assert (Lt : length related = length (map ap_type apps)) by (rewrite map_length; exact Lr).
    destruct (real_variable _ _ _ _ _ _ _ _ _ Lt H) as [V1 V2]. rewrite map_length in *.
    destruct (Nat.lt_trichotomy (length (l_variable L)) (length apps)) as [C|[C|C]]; [|exact C|].
    - exfalso. destruct (nth_error (map ap_type apps) (length (l_variable L))) as [t|] eqn:Et; [|apply nth_error_None in Et; rewrite map_length in Et; lia].
      destruct (nth_error related (length (l_variable L))) as [r|] eqn:Er; [|apply nth_error_None in Er; lia].
      destruct (V2 _ _ _ Et Er) as (b & Eb & _). assert (length (l_variable L) < length (l_variable L)); [|lia].
      apply nth_error_Some. unfold at_ in Eb. congruence.
    - exfalso. destruct (nth_error (l_variable L) (length apps)) as [b|] eqn:Eb; [|apply nth_error_None in Eb; lia]. specialize (V1 _ _ Eb). lia.
  Qed.

  Lemma make_ok : forall s, make_with first_left apps related own algo sw fu p1 p2 wait = Ok s ->
    exists L left, sample_real_load_profiles algo own (map ap_type apps) related sw fu p1 p2 = Ok L /\ first_left L = Ok left /\
      length (s_apps s) = length apps /\ s_own s = own /\ s_left s = left /\ s_load_dur s = l_dur L /\ s_load_id s = l_id L /\ s_loads s = l_dict L /\
      shaped n (length apps) (l_dur L) /\
      (shaped n (length apps) left -> simulates n s) /\
      forall h j v a r, sees s h j v -> at_ apps j a -> at_ related j r ->
        v_app v = set_variable a (ap_variable (v_app v)) /\
        (ap_variable (v_app v) = true <-> exists real, source algo sw fu r real /\ known real (ap_type a)) /\
        v_refresh v = (if Z.ltb 0 (ap_delay a) then wait h j else 0%Z).
  Proof.
    unfold make_with. intros s H. destruct (sample_real_load_profiles algo own (map ap_type apps) related sw fu p1 p2) as [L|] eqn:E; [|discriminate].
    cbn [bind] in H. destruct (first_left L) as [left|] eqn:El; [|discriminate]. cbn [bind] in H. injection H as <-.
    pose proof (variable_length L E) as VL.
    assert (LA : length (map2 set_variable apps (l_variable L)) = length apps) by (rewrite map2_length, VL; apply Nat.min_id).
    destruct (real_shape _ _ _ _ _ _ _ _ _ n (length apps) E So) as [S1 S2].
    exists L, left. simpl. repeat (split; [first [reflexivity|assumption|exact LA]|]). split.
    - intro Sl. unfold simulates. cbn [s_apps s_own s_left s_refresh s_load_dur s_load_id]. rewrite LA. repeat (split; [assumption|]). split; [|split; assumption].
      destruct So as [Ln _]. rewrite Ln. apply refresh_shape.
    - intros h j v a r (Va & Vo & _ & Vr & _) Ea Er. cbn [s_apps s_own s_refresh] in *. apply at_map2 in Va. destruct Va as (a' & b & Ea' & Eb & ->).
      assert (a' = a) by (unfold at_ in *; congruence). subst a'. split; [reflexivity|]. split.
      + assert (Lt : length related = length (map ap_type apps)) by (rewrite map_length; exact Lr).
        destruct (real_variable _ _ _ _ _ _ _ _ _ Lt E) as [_ V2]. destruct (V2 j (ap_type a) r) as (b' & Eb' & I); [apply at_map; eauto|exact Er|].
        assert (b' = b) by (unfold at_ in *; congruence). subst b'. exact I.
      + assert (Lh : h < n) by (apply (at2_shaped _ _ _ _ _ _ _ So Vo)). destruct So as [Ln _]. rewrite Ln in Vr.
        eapply at2_fun; [exact Vr|]. apply refresh_at; assumption.
  Qed.
End Make.

(** ** Readings stay defined *)

(** The variable appliances of the owners point into a profile and are not before its
    beginning. *)
Definition ready (s : asim) : Prop := forall h j v, sees s h j v -> v_own v = true -> ap_variable (v_app v) = true ->
  0 < v_dur v /\ (v_left v <= qn (v_dur v))%Q /\ exists profiles profile, dget String.eqb (s_loads s) (ap_type (v_app v)) = Some profiles /\
    at_ profiles (v_id v) profile /\ v_dur v <= length profile.

Lemma ready_power : forall n s, simulates n s -> ready s -> exists P, get_current_power_consumptions s = Ok P.
Proof.
  intros n s Hs R. apply (power_total n); [exact Hs|]. intros h j v Hv Ow _ Va. destruct (R h j v Hv Ow Va) as (_ & A & B). auto.
Qed.

Lemma at_least_picked : forall m real t tables id dur, at_least m real -> follows real t tables id dur -> m <= dur.
Proof. intros m real t tables id dur A (ps & name & p & rows & zeros & F1 & F2 & -> & _). apply (A t ps F1) in F2. exact F2. Qed.

Lemma follows_profile : forall real t tables id dur, follows real t tables id dur ->
  exists rows row, dget String.eqb tables t = Some rows /\ at_ rows id row /\ dur <= length row.
Proof.
  intros real t tables id dur (ps & name & p & rows & zeros & _ & _ & -> & F4 & F5 & _). exists rows, (List.app p zeros). repeat split; auto. rewrite List.app_length. lia.
Qed.

Lemma tick_le : forall l, (tick_left l <= l)%Q.
Proof. intro l. unfold tick_left. destruct (Qltb 0 l); lra. Qed.

(** Views of the next state come from views of the state. *)
Lemma sees_back : forall n s s' h j w, simulates n s -> simulates n s' -> s_apps s' = s_apps s -> sees s' h j w -> exists v, sees s h j v.
Proof.
  intros n s s' h j w Hs Hs' Ea (Wa & Wo & _). apply (simulates_sees n).
  - exact Hs.
  - destruct Hs' as (So & _). apply (at2_shaped _ _ _ _ _ _ _ So Wo).
  - rewrite <- Ea. apply nth_error_Some. unfold at_ in Wa. congruence.
Qed.

Lemma ready_base : forall n s, simulates n s -> ready s -> ready (base_step s).
Proof.
  intros n s Hs R h j w Hw Ow Va. destruct (sees_back n s (base_step s) h j w Hs (base_step_simulates n s Hs) eq_refl Hw) as [v Hv].
  pose proof (base_step_sees s h j v Hv) as Hb. rewrite (sees_fun _ _ _ _ _ Hw Hb) in *. simpl in *.
  destruct (R h j v Hv Ow Va) as (D & A & B). split; [exact D|]. split; [|exact B]. pose proof (tick_le (v_left v)). lra.
Qed.

Lemma ready_after : forall k n s, simulates n s -> ready s -> simulates n (after k s) /\ ready (after k s).
Proof.
  induction k as [|k IH]; simpl; intros n s Hs R; [auto|]. destruct (IH n s Hs R). split; [apply base_step_simulates|eapply ready_base]; eauto.
Qed.

Lemma start_cycles_loads : forall s s' idx ds, start_cycles s idx ds = Ok s' -> s_loads s' = s_loads s.
Proof.
  unfold start_cycles. intros s s' idx ds H. destruct (mput _ (s_left s)); [|discriminate]. cbn [bind] in H. destruct (mapM _ _); [|discriminate]. cbn [bind] in H.
  destruct (mput _ (s_refresh s)); [|discriminate]. cbn [bind] in H. injection H as <-. reflexivity.
Qed.

Lemma occ_loads : forall s i s', occ_do s i = Ok s' -> s_loads s' = s_loads s.
Proof.
  unfold occ_do, occ_step. intros s i s' H. destruct (negb _); [discriminate|]. destruct (get_switchon_probs _ _ _ _); [|discriminate]. cbn [bind] in H.
  unfold occ_switch_on in H. destruct (switch_on_constant_loads _ _ _) as [s1|] eqn:E1; [|discriminate]. cbn [bind] in H.
  destruct (switch_on_water_fixtures _ _ _) as [s2|] eqn:E2; [|discriminate]. cbn [bind] in H. injection H as <-. simpl.
  unfold switch_on_constant_loads in E1. destruct (mapM _ _); [|discriminate]. apply start_cycles_loads in E1.
  unfold switch_on_water_fixtures in E2. destruct (mapM _ _); [|discriminate]. apply start_cycles_loads in E2. congruence.
Qed.

Definition dry (s : asim) : Prop := forall j a, at_ (s_apps s) j a -> ap_variable a = true -> ap_water a = false.

Lemma ready_occ : forall n s i s', simulates n s -> draws i -> dry s -> ready s -> occ_do s i = Ok s' -> simulates n s' /\ dry s' /\ ready s'.
Proof.
  intros n s i s' Hs Hu Hd R H. destruct (occ_step_sees n s i s' Hs Hu H) as (A1 & A2 & A3). split; [exact A1|]. split.
  { unfold dry. rewrite A2. exact Hd. }
  intros h j w Hw Ow Va. destruct (sees_back n s s' h j w Hs A1 A2 Hw) as [v Hv].
  destruct (A3 h j v Hv) as (l1 & r1 & C & Hw'). rewrite (sees_fun _ _ _ _ _ Hw Hw') in *. simpl in *.
  destruct (R h j v Hv Ow Va) as (D & A & B). rewrite (occ_loads _ _ _ H). split; [exact D|]. split; [|exact B].
  assert (Q1 : (l1 <= qn (v_dur v))%Q).
  { destruct C as [(_ & d & (_ & Cd & _) & -> & _)|(_ & -> & _)]; [|exact A].
    rewrite Cd; [unfold qn; lra| |lia]. destruct Hv as (Va' & _). apply (Hd j _ Va' Va). }
  destruct (off_flag i h v).
  - pose proof (tick_le 0). pose proof (qn_nonneg (v_dur v)). lra.
  - pose proof (tick_le l1). lra.
Qed.

Lemma ready_run : forall l n s s', simulates n s -> (forall i, In i l -> draws i) -> dry s -> ready s -> occ_run s l = Ok s' ->
  simulates n s' /\ ready s'.
Proof.
  induction l as [|i l IH]; simpl; intros n s s' Hs Hu Hd R H; [injection H as <-; auto|].
  destruct (occ_do s i) as [s1|] eqn:E; [|discriminate]. cbn [bind] in H.
  destruct (ready_occ n s i s1) as (B1 & B2 & B3); auto. eapply IH; eauto.
Qed.

(** ** The constructors *)

Section Built.
  Variables (apps : list app) (related : list string) (own : list (list bool)) (algo : profiles_algo) (sw fu : result real_loads).
  Variables (p1 p2 start : nat -> nat -> nat) (wait : nat -> nat -> Z) (n : nat).
  Hypothesis Lr : length related = length apps.
  Hypothesis So : shaped n (length apps) own.

  Lemma view_parts : forall (s : asim) h j v, length (s_apps s) = length apps -> sees s h j v -> exists a r, at_ apps j a /\ at_ related j r.
  Proof.
    intros s h j v LA (Va & _). assert (Lj : j < length apps) by (rewrite <- LA; apply nth_error_Some; unfold at_ in Va; congruence).
    destruct (nth_error apps j) as [a|] eqn:Ea; [|apply nth_error_None in Ea; lia].
    destruct (nth_error related j) as [r|] eqn:Er; [|apply nth_error_None in Er; lia]. exists a, r. auto.
  Qed.

  Lemma built_ready : forall first_left s m, make_with first_left apps related own algo sw fu p1 p2 wait = Ok s -> 0 < m ->
    (forall real, sw = Ok real \/ fu = Ok real -> at_least m real) ->
    (forall h j v, sees s h j v -> (v_left v <= qn (v_dur v))%Q) -> ready s.
  Proof.
    intros first_left s m H Hm AL Hl h j v Hv Ow Va.
    destruct (make_ok first_left apps related own algo sw fu p1 p2 wait n Lr So s H) as (L & left & E1 & E2 & LA & Eo & El & Ed & Ei & Et & Sd & _ & A).
    destruct (view_parts s h j v LA Hv) as (a & r & Ea & Er). destruct (A h j v a r Hv Ea Er) as (Eva & Iv & _).
    destruct Hv as (V1 & V2 & V3 & V4 & V5 & V6) eqn:EHv. clear EHv. rewrite Eo in V2. rewrite Ow in V2.
    destruct (real_profile _ _ _ _ _ _ _ _ _ h j (ap_type a) r E1) as (id & dur & real & [As1 As2] & Fo & Src & _).
    { apply at_map. eauto. } { exact Er. } { exact V2. } { apply Iv. exact Va. }
    rewrite Ed in V5. rewrite Ei in V6. assert (Dd : v_dur v = dur) by (eapply at2_fun; eauto). assert (Di : v_id v = id) by (eapply at2_fun; eauto).
    rewrite Dd, Di, Et. assert (Ty : ap_type (v_app v) = ap_type a) by (rewrite Eva; reflexivity). rewrite Ty.
    pose proof (at_least_picked m real _ _ _ _ (AL real Src) Fo) as Ge. split; [lia|]. split.
    - rewrite <- Dd. apply (Hl h j). exact Hv.
    - exact (follows_profile _ _ _ _ _ Fo).
  Qed.

  Lemma parent_left : forall s, make_appliances apps related own algo sw fu p1 p2 start wait = Ok s ->
    simulates n s /\ forall h j v r, sees s h j v -> at_ related j r ->
      (whole_day r -> 0 < v_dur v -> 1 < v_dur v /\ v_left v = qn (start h j)) /\ (~ (whole_day r /\ 0 < v_dur v) -> v_left v = 0%Q).
  Proof.
    unfold make_appliances. intros s H.
    destruct (make_ok _ apps related own algo sw fu p1 p2 wait n Lr So s H) as (L & left & E1 & E2 & LA & Eo & El & Ed & Ei & Et & Sd & Sim & A).
    rewrite <- Lr in Sd. destruct (left_cells related (l_dur L) start left n Sd E2) as (Sl & Cl). rewrite Lr in Sl. split; [auto|].
    intros h j v r (V1 & V2 & V3 & V4 & V5 & V6) Er. rewrite Ed in V5. rewrite El in V3. destruct (Cl h j _ r V5 Er) as (x & Ex & C).
    assert (v_left v = x) by (eapply at2_fun; eauto). subst x. exact C.
  Qed.

  Lemma occupancy_left : forall s, make_occupancy_appliances apps related own algo sw fu p1 p2 wait = Ok s ->
    simulates n s /\ forall h j v, sees s h j v -> v_left v = 0%Q.
  Proof.
    unfold make_occupancy_appliances. intros s H.
    destruct (make_ok _ apps related own algo sw fu p1 p2 wait n Lr So s H) as (L & left & E1 & E2 & LA & Eo & El & Ed & Ei & Et & Sd & Sim & A).
    injection E2 as <-. split; [apply Sim; apply shaped_map; exact So|].
    intros h j v (V1 & V2 & V3 & _). rewrite El in V3. apply at2_map in V3. destruct V3 as (x & _ & E). exact E.
  Qed.

  Lemma make_total : forall rs rf, sw = Ok rs -> fu = Ok rf -> algo <> OtherAlgo ->
    picks (map ap_type apps) rs p1 -> picks (map ap_type apps) rf p2 -> at_least 2 rs -> at_least 2 rf ->
    exists s, make_appliances apps related own algo sw fu p1 p2 start wait = Ok s.
  Proof.
    intros rs rf -> -> Ha P1 P2 A1 A2. unfold make_appliances, make_with.
    destruct (real_total algo own (map ap_type apps) related rs rf p1 p2 n (length apps) Ha So P1 P2) as [L E].
    { intros t _ X. apply A1 in X. destruct X as [X _]. auto. } { intros t _ X. apply A2 in X. destruct X as [X _]. auto. }
    rewrite E. cbn [bind]. destruct (real_shape _ _ _ _ _ _ _ _ _ n (length apps) E So) as [S1 S2]. rewrite <- Lr in S2.
    destruct (left_total related (l_dur L) start n S2) as [left El].
    - intros h j d r Ed Er W D1. subst d. destruct (at2_shaped _ _ _ _ _ _ _ S2 Ed) as [Lh Lj]. rewrite Lr in Lj.
      destruct (nth_error apps j) as [a|] eqn:Ea; [|apply nth_error_None in Ea; lia].
      destruct (shaped_at2 _ n (length apps) own h j So Lh Lj) as [b Eb].
      (* the cell was assigned by a pass, or is zero *)
      rewrite sample_real_unfold in E.
      assert (Z0 : forall id dur, assigned (zero_loads own (map ap_type apps)) h j id dur -> dur = 0).
      { intros id dur X. apply (zero_assigned own (map ap_type apps) h j id dur b Eb) in X. tauto. }
      assert (K : forall always real pick L0 L1, at_least 2 real -> sample_kind always own (map ap_type apps) related real pick L0 = Ok L1 ->
        shaped n (length apps) (l_id L0) -> shaped n (length apps) (l_dur L0) ->
        (forall id dur, assigned L0 h j id dur -> dur <> 1) -> forall id dur, assigned L1 h j id dur -> dur <> 1).
      { intros always real pick L0 L1 AL HK SI SD N id dur As. apply kind_ok in HK. destruct HK as (_ & _ & _ & B & C).
        assert (Et : at_ (map ap_type apps) j (ap_type a)) by (apply at_map; eauto).
        assert (Dec : visited always (map ap_type apps) related real (ap_type a) \/ ~ visited always (map ap_type apps) related real (ap_type a)).
        { rewrite <- visited_spec. match goal with |- In ?x ?l \/ _ => destruct (in_dec string_dec x l); auto end. }
        destruct b, Dec as [V|V].
        - destruct (B h j _ Et Eb V) as (id' & dur' & [As1 As2] & Fo). destruct As as [_ As]. rewrite (at2_fun _ _ _ _ _ _ As As2).
          pose proof (at_least_picked 2 real _ _ _ _ AL Fo). lia.
        - apply (N id dur). apply C; [|exact As]. intros t Et' _. unfold at_ in *. replace t with (ap_type a) by congruence. exact V.
        - apply (N id dur). apply C; [|exact As]. intros t _ Ow. pose proof (at2_fun _ _ _ _ _ _ Eb Ow). discriminate.
        - apply (N id dur). apply C; [|exact As]. intros t _ Ow. pose proof (at2_fun _ _ _ _ _ _ Eb Ow). discriminate. }
      destruct (shaped_at2 _ n (length apps) (l_id L) h j S1 Lh Lj) as [id Eid].
      assert (As : assigned L h j id 1) by (split; assumption).
      destruct (zero_shaped own (map ap_type apps) n (length apps) So) as [ZS1 ZS2].
      destruct algo; cbn [bind] in E.
      + injection E as <-. specialize (Z0 _ _ As). lia.
      + apply (K true rf p2 _ L A2 E ZS1 ZS2) in As; [auto|]. intros id' dur' X. rewrite (Z0 _ _ X). lia.
      + apply (K false rs p1 _ L A1 E ZS1 ZS2) in As; [auto|]. intros id' dur' X. rewrite (Z0 _ _ X). lia.
      + destruct (sample_kind false _ _ _ _ _ _) as [L1|] eqn:E1; [|discriminate]. cbn [bind] in E.
        pose proof (kind_ok _ _ _ _ _ _ _ _ E1) as (_ & Sh & _). destruct (Sh n (length apps) ZS1 ZS2) as [SI SD].
        apply (K true rf p2 L1 L A2 E SI SD) in As; [auto|]. apply (K false rs p1 _ L1 A1 E1 ZS1 ZS2). intros id' dur' X. rewrite (Z0 _ _ X). lia.
      + contradiction.
    - rewrite El. cbn [bind]. eauto.
  Qed.

  Lemma parent_readings : forall s k, make_appliances apps related own algo sw fu p1 p2 start wait = Ok s ->
    (forall real, sw = Ok real \/ fu = Ok real -> at_least 1 real) -> starts (s_load_dur s) start ->
    exists P, get_current_power_consumptions (after k s) = Ok P.
  Proof.
    intros s k H AL St. destruct (parent_left s H) as (Sim & Cl).
    assert (R : ready s).
    { eapply (built_ready _ s 1 H); [lia|exact AL|]. intros h j v Hv.
      destruct (make_ok _ apps related own algo sw fu p1 p2 wait n Lr So s H) as (L & left & _ & _ & LA & _).
      destruct (view_parts s h j v LA Hv) as (a & r & Ea & Er). destruct (Cl h j v r Hv Er) as (C1 & C2).
      destruct (always_on r) eqn:Ar.
      - apply always_on_spec in Ar. destruct (Nat.eq_dec (v_dur v) 0) as [Z|NZ].
        + rewrite C2 by (intros [_ X]; lia). apply qn_nonneg.
        + destruct (C1 Ar) as [D ->]; [lia|]. apply qn_le. destruct Hv as (_ & _ & _ & _ & V5 & _). specialize (St h j _ V5 D). lia.
      - apply not_whole in Ar. rewrite C2 by tauto. apply qn_nonneg. }
    destruct (ready_after k n s Sim R) as [S' R']. exact (ready_power n _ S' R').
  Qed.

  Lemma occupancy_readings : forall s l s', make_occupancy_appliances apps related own algo sw fu p1 p2 wait = Ok s ->
    (forall real, sw = Ok real \/ fu = Ok real -> at_least 1 real) ->
    (forall a, In a apps -> ap_water a = false) \/ dry s ->
    (forall i, In i l -> draws i) -> occ_run s l = Ok s' -> exists P, get_current_power_consumptions s' = Ok P.
  Proof.
    intros s l s' H AL Hd Hu Hr. destruct (occupancy_left s H) as (Sim & Cl).
    assert (R : ready s).
    { eapply (built_ready _ s 1 H); [lia|exact AL|]. intros h j v Hv. rewrite (Cl h j v Hv). apply qn_nonneg. }
    assert (D : dry s).
    { destruct Hd as [Hd|Hd]; [|exact Hd]. unfold make_occupancy_appliances, make_with in H. destruct (sample_real_load_profiles _ _ _ _ _ _ _ _) as [L|]; [|discriminate].
      cbn [bind] in H. injection H as <-. intros j a Ea _. cbn [s_apps] in Ea. apply at_map2 in Ea. destruct Ea as (a0 & b & Ea & _ & ->). simpl.
      apply Hd. eapply nth_error_In. exact Ea. }
    destruct (ready_run l n s s' Sim Hu D R Hr) as [S' R']. exact (ready_power n _ S' R').
  Qed.
End Built.
