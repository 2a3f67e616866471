(** * Proofs about the appliance simulators. *)

From Coq Require Import String List ZArith QArith Qround Bool Arith Lia Lqa.
From Verif Require Import Prelude PreludeFacts SpecBase SpecBaseFacts Parse_Model Appliance_Model Appliance_Spec Matrix_Proofs.
Import ListNotations.

Open Scope Q_scope.

Definition recount (v : view) (l : Q) (r : Z) : view := View (v_app v) (v_own v) l r (v_dur v) (v_id v).

Lemma recount_static : forall v l r, same_static v (recount v l r).
Proof. intros. repeat split. Qed.

Lemma sees_fun : forall s h j v w, sees s h j v -> sees s h j w -> v = w.
Proof.
  intros s h j [a o l r d i] [a' o' l' r' d' i'] (H1 & H2 & H3 & H4 & H5 & H6) (G1 & G2 & G3 & G4 & G5 & G6). simpl in *.
  f_equal; eauto using at_fun, at2_fun.
Qed.

Lemma simulates_sees : forall n s h j, simulates n s -> (h < n)%nat -> (j < length (s_apps s))%nat -> exists v, sees s h j v.
Proof.
  intros n s h j (H1 & H2 & H3 & H4 & H5) Hh Hj.
  destruct (lt_at _ _ _ Hj) as [a Ha].
  destruct (shaped_at2 _ _ _ _ h j H1 Hh Hj) as [x1 E1]. destruct (shaped_at2 _ _ _ _ h j H2 Hh Hj) as [x2 E2].
  destruct (shaped_at2 _ _ _ _ h j H3 Hh Hj) as [x3 E3]. destruct (shaped_at2 _ _ _ _ h j H4 Hh Hj) as [x4 E4].
  destruct (shaped_at2 _ _ _ _ h j H5 Hh Hj) as [x5 E5].
  exists (View a x1 x2 x3 x4 x5). repeat split; assumption.
Qed.

(** ** Truncation *)

Lemma trunc_int_part : forall q, int_part q (trunc q).
Proof.
  intros [n d]. unfold int_part, trunc, Qle, Qlt, Qminus, Qplus, Qopp, inject_Z. simpl.
  pose proof (Z.quot_rem' n (Zpos d)) as E.
  split; intro H.
  - assert (0 <= n)%Z by lia. pose proof (Z.rem_bound_pos n (Zpos d) H0 (Pos2Z.is_pos d)). nia.
  - assert (n <= 0)%Z by lia. pose proof (Z.rem_bound_pos (-n) (Zpos d) ltac:(lia) (Pos2Z.is_pos d)) as B.
    rewrite Z.rem_opp_l in B by lia. nia.
Qed.

Lemma trunc_nonneg : forall q, 0 <= q -> inject_Z (trunc q) <= q /\ q < inject_Z (trunc q) + 1.
Proof. intros q H. apply (trunc_int_part q). exact H. Qed.

Lemma int_part_unique : forall q z z', int_part q z -> int_part q z' -> z = z'.
Proof.
  intros q z z' [H1 H2] [G1 G2].
  assert (D : forall a b : Z, inject_Z a < inject_Z b + 1 -> (a < b + 1)%Z).
  { intros a b H. unfold Qlt, Qplus, inject_Z in H. simpl in H. lia. }
  destruct (Qlt_le_dec q 0) as [Hq|Hq].
  - destruct (H2 (Qlt_le_weak _ _ Hq)), (G2 (Qlt_le_weak _ _ Hq)).
    assert (X1 : inject_Z z < inject_Z z' + 1) by lra. assert (X2 : inject_Z z' < inject_Z z + 1) by lra.
    apply D in X1. apply D in X2. lia.
  - destruct (H1 Hq), (G1 Hq).
    assert (X1 : inject_Z z < inject_Z z' + 1) by lra. assert (X2 : inject_Z z' < inject_Z z + 1) by lra.
    apply D in X1. apply D in X2. lia.
Qed.

Lemma int_part_comp : forall q q' z, q == q' -> int_part q z -> int_part q' z.
Proof. intros q q' z E [H1 H2]. split; intro H; [destruct (H1 ltac:(lra))|destruct (H2 ltac:(lra))]; split; lra. Qed.

Lemma trunc_comp : forall q q', q == q' -> trunc q = trunc q'.
Proof. intros q q' E. apply (int_part_unique q'); [apply (int_part_comp q); auto|]; apply trunc_int_part. Qed.

Lemma trunc_inject : forall z, trunc (inject_Z z) = z.
Proof. intro z. unfold trunc, inject_Z. simpl. apply Z.quot_1_r. Qed.

(** ** Starting cycles *)

Section Start.
  Variable g : nat * nat -> result Q.

  Lemma start_cycles_ok : forall s s' idx ds, mapM g idx = Ok ds -> start_cycles s idx ds = Ok s' ->
    (forall n, simulates n s -> simulates n s') /\ s_apps s' = s_apps s /\ s_loads s' = s_loads s /\
    forall h j v, sees s h j v ->
      (In (h, j) idx -> exists d, g (h, j) = Ok d /\ sees s' h j (recount v d (refresh_after (v_app v) d))) /\
      (~ In (h, j) idx -> sees s' h j v).
  Proof.
    intros s s' idx ds Hm H. unfold start_cycles in H.
    destruct (mput (combine idx ds) (s_left s)) as [left|] eqn:El; simpl in H; [|discriminate].
    match type of H with bind ?x _ = _ => destruct x as [rs|] eqn:Er end; simpl in H; [|discriminate].
    destruct (mput rs (s_refresh s)) as [refresh|] eqn:Ef; simpl in H; [|discriminate].
    injection H as <-.
    destruct (mput_ok _ _ _ _ El) as (L1 & L2 & L3). destruct (mput_ok _ _ _ _ Ef) as (R1 & R2 & R3).
    rewrite (combine_keys _ _ _ _ _ Hm) in L2.
    (* the refresh assignments have the same keys *)
    assert (Rin : forall h j z, In ((h, j), z) rs -> exists d a, In ((h, j), d) (combine idx ds) /\ at_ (s_apps s) j a /\ z = refresh_after a d).
    { intros h j z Hin. apply in_at in Hin. destruct Hin as [p Hp].
      destruct (mapM_ok _ _ _ _ _ Er) as [Elen Hall].
      assert (Hp' : (p < length (combine idx ds))%nat) by (rewrite <- Elen; eapply at_lt; exact Hp).
      destruct (lt_at _ _ _ Hp') as [[[h' j'] d] Hd]. destruct (Hall p _ Hd) as (y & Hy1 & Hy2).
      unfold at_ in Hp. rewrite Hp in Hy1. injection Hy1 as <-.
      destruct (vget (s_apps s) j') as [a|] eqn:Ea; simpl in Hy2; [|discriminate]. injection Hy2 as -> -> <-.
      exists d, a. split; [eapply at_in; exact Hd|]. split; [apply vget_ok; exact Ea|reflexivity]. }
    assert (Rkeys : forall h j, In (h, j) idx -> exists z, In ((h, j), z) rs).
    { intros h j Hin. rewrite <- (combine_keys _ _ _ _ _ Hm) in Hin. apply in_keys_combine in Hin. destruct Hin as [d Hd].
      apply in_at in Hd. destruct Hd as [p Hp]. destruct (mapM_ok _ _ _ _ _ Er) as [Elen Hall].
      destruct (Hall p _ Hp) as (y & Hy1 & Hy2). destruct (vget (s_apps s) j) as [a|] eqn:Ea; simpl in Hy2; [|discriminate].
      injection Hy2 as <-. exists (refresh_after a d). eapply at_in. exact Hy1. }
    split; [|split; [reflexivity|split; [reflexivity|]]].
    - intros n (H1 & H2 & H3 & H4 & H5). unfold simulates. simpl. auto 10.
    - intros h j v (V1 & V2 & V3 & V4 & V5 & V6). split.
      + intro Hin.
        destruct (L1 h j) as (d & Hd & Hat).
        { rewrite <- (combine_keys _ _ _ _ _ Hm) in Hin. now apply in_keys_combine in Hin. }
        destruct (R1 h j) as (z & Hz & Hzt); [now apply Rkeys|].
        destruct (Rin h j z Hz) as (d' & a & Hd' & Ha & ->).
        destruct (combine_in_mapM _ _ _ _ _ _ _ Hm Hd) as [G1 _]. destruct (combine_in_mapM _ _ _ _ _ _ _ Hm Hd') as [G2 _].
        assert (d' = d) by congruence. subst d'.
        assert (a = v_app v) by (eapply at_fun; eassumption). subst a.
        exists d. split; [exact G1|]. repeat split; simpl; assumption.
      + intro Hnot. repeat split; simpl; try assumption.
        * apply L2; assumption.
        * apply R2; [|assumption]. intro Hin. apply in_map_iff in Hin. destruct Hin as ([k z] & E & Hin). simpl in E. subst k.
          destruct (Rin h j z Hin) as (d & a & Hd & _). destruct (combine_in_mapM _ _ _ _ _ _ _ Hm Hd). auto.
  Qed.

  Lemma start_cycles_total : forall n s idx ds, simulates n s -> mapM g idx = Ok ds ->
    (forall h j, In (h, j) idx -> (h < n)%nat /\ (j < length (s_apps s))%nat) -> exists s', start_cycles s idx ds = Ok s'.
  Proof.
    intros n s idx ds (H1 & H2 & H3 & H4 & H5) Hm Hin. unfold start_cycles.
    assert (Hb : forall h j v, In ((h, j), v) (combine idx ds) -> (h < n)%nat /\ (j < length (s_apps s))%nat).
    { intros h j v Hv. apply Hin. destruct (combine_in_mapM _ _ _ _ _ _ _ Hm Hv). assumption. }
    destruct (mput_total _ (combine idx ds) (s_left s) n _ H2 Hb) as [left El]. rewrite El. simpl.
    match goal with |- exists s', bind (mapM ?f ?l) _ = _ => destruct (mapM f l) as [rs|] eqn:Er end.
    - simpl. destruct (mput_total _ rs (s_refresh s) n (length (s_apps s)) H3) as [rf Ef]; [|rewrite Ef; simpl; eauto].
      intros h j z Hz. apply in_at in Hz. destruct Hz as [p Hp]. destruct (mapM_ok _ _ _ _ _ Er) as [Elen Hall].
      assert (Hp' : (p < length (combine idx ds))%nat) by (rewrite <- Elen; eapply at_lt; exact Hp).
      destruct (lt_at _ _ _ Hp') as [[[h' j'] d] Hd]. destruct (Hall p _ Hd) as (y & Hy1 & Hy2).
      unfold at_ in Hp. rewrite Hp in Hy1. injection Hy1 as <-.
      destruct (vget (s_apps s) j') as [a|]; simpl in Hy2; [|discriminate]. injection Hy2 as -> -> _.
      apply (Hb h j d). eapply at_in; exact Hd.
    - exfalso. destruct (mapM_total _ _ (fun kd : (nat * nat) * Q =>
        let '((h, j), d) := kd in bind (vget (s_apps s) j) (fun a => Ok ((h, j), refresh_after a d))) (combine idx ds)) as [out Ho].
      + intros [[h j] d] Hd. destruct (Hb h j d Hd) as [_ Hj]. destruct (lt_at _ _ _ Hj) as [a Ha].
        apply vget_ok in Ha. rewrite Ha. simpl. eauto.
      + congruence.
  Qed.
End Start.

(** ** The views after each operation *)

Lemma base_step_sees : forall s h j v, sees s h j v -> sees (base_step s) h j (recount v (tick_left (v_left v)) (tick_refresh (v_refresh v))).
Proof.
  intros s h j v (V1 & V2 & V3 & V4 & V5 & V6). repeat split; simpl; try assumption; apply at2_map; eauto.
Qed.

Lemma base_step_simulates : forall n s, simulates n s -> simulates n (base_step s).
Proof. intros n s (H1 & H2 & H3 & H4 & H5). unfold simulates; simpl. auto 10 using shaped_map. Qed.

Lemma usage_at : forall s h j v b, sees s h j v -> (at2 (get_current_usage s) h j b <-> b = Qltb 0 (v_left v) && v_own v).
Proof.
  intros s h j v b (V1 & V2 & V3 & V4 & V5 & V6). unfold get_current_usage. rewrite at2_mmap2. split.
  - intros (x & y & H1 & H2 & ->). apply at2_map in H1. destruct H1 as (l & H1 & ->).
    rewrite (at2_fun _ _ _ _ _ _ H1 V3), (at2_fun _ _ _ _ _ _ H2 V2). reflexivity.
  - intros ->. exists (Qltb 0 (v_left v)), (v_own v). split; [apply at2_map; eauto|auto].
Qed.

Lemma mask_at : forall s h j v b, sees s h j v ->
  (at2 (get_mask_available_appliances s) h j b <-> b = v_own v && Qle_bool (v_left v) 0 && (v_refresh v <=? 0)%Z).
Proof.
  intros s h j v b (V1 & V2 & V3 & V4 & V5 & V6). unfold get_mask_available_appliances. rewrite at2_mmap2. split.
  - intros (x & y & H1 & H2 & ->). apply at2_mmap2 in H1. destruct H1 as (x1 & x2 & H1 & H3 & ->).
    apply at2_map in H2. destruct H2 as (r & H2 & ->). apply at2_map in H3. destruct H3 as (l & H3 & ->).
    rewrite (at2_fun _ _ _ _ _ _ H1 V2), (at2_fun _ _ _ _ _ _ H2 V4), (at2_fun _ _ _ _ _ _ H3 V3). reflexivity.
  - intros ->. exists (v_own v && Qle_bool (v_left v) 0)%bool, (v_refresh v <=? 0)%Z. split; [|split; [apply at2_map; eauto|reflexivity]].
    apply at2_mmap2. exists (v_own v), (Qle_bool (v_left v) 0). split; [assumption|]. split; [apply at2_map; eauto|reflexivity].
Qed.

Lemma sample_duration_ok : forall s vol h j v d, sees s h j v -> sample_duration s vol (h, j) = Ok d -> cycle_length v (vol h j) d.
Proof.
  intros s vol h j v d (V1 & V2 & V3 & V4 & V5 & V6) H. unfold sample_duration in H.
  apply vget_ok in V1. rewrite V1 in H. simpl in H.
  destruct (if ap_water (v_app v) then water_duration (v_app v) (vol h j) else Ok (ap_duration (v_app v))) as [d0|] eqn:E; simpl in H; [|discriminate].
  apply mget_ok in V5. rewrite V5 in H. simpl in H. injection H as <-.
  unfold cycle_length. destruct (Nat.ltb_spec 0 (v_dur v)) as [Hd|Hd].
  - split; [reflexivity|]. split; intros; lia.
  - split; [intros; lia|]. destruct (ap_water (v_app v)).
    + unfold water_duration in E. destruct (Qeq_bool (ap_flow (v_app v)) 0) eqn:Ef; [discriminate|]. injection E as <-.
      split; [|discriminate]. intros _ _. apply Qeq_bool_neq in Ef. field. exact Ef.
    + injection E as <-. split; [discriminate|]. reflexivity.
Qed.

(** ** Parent switch-on (C37) *)

Lemma sees_static_transfer : forall s s' h j v, s_apps s' = s_apps s -> s_load_dur s' = s_load_dur s ->
  s_own s' = s_own s -> s_load_id s' = s_load_id s -> sees s h j v ->
  forall w, sees s' h j w -> same_static v w.
Proof.
  intros s s' h j v E1 E2 E3 E4 (V1 & V2 & V3 & V4 & V5 & V6) w (W1 & W2 & W3 & W4 & W5 & W6).
  rewrite E1 in W1. rewrite E2 in W5. rewrite E3 in W2. rewrite E4 in W6.
  repeat split; eauto using at_fun, at2_fun.
Qed.

Lemma is_variable_view : forall s h j v, sees s h j v -> is_variable s (h, j) = ap_variable (v_app v).
Proof. intros s h j v (V1 & _). unfold is_variable. simpl. unfold at_ in V1. rewrite V1. reflexivity. Qed.

Lemma switch_on_ok : forall s s' vol idx, switch_on s vol idx = Ok s' ->
  (forall n, simulates n s -> simulates n s') /\ s_apps s' = s_apps s /\
  forall h j v, sees s h j v ->
    (In (h, j) idx -> exists d, sees s' h j (recount v d (refresh_after (v_app v) d)) /\
       ((ap_variable (v_app v) = true -> d == qn (v_dur v)) /\
        (ap_variable (v_app v) = false -> cycle_length v (vol h j) d))) /\
    (~ In (h, j) idx -> sees s' h j v).
Proof.
  intros s s' vol idx H. unfold switch_on in H.
  destruct (switch_on_variable_loads s (filter (is_variable s) idx)) as [s1|] eqn:E1; simpl in H; [|discriminate].
  unfold switch_on_variable_loads in E1.
  match type of E1 with bind (mapM ?f ?l) _ = _ => destruct (mapM f l) as [ds1|] eqn:M1 end; simpl in E1; [|discriminate].
  destruct (start_cycles_ok _ _ _ _ _ M1 E1) as (A1 & A2 & _ & A3).
  unfold switch_on_constant_loads in H.
  match type of H with bind (mapM ?f ?l) _ = _ => destruct (mapM f l) as [ds2|] eqn:M2 end; simpl in H; [|discriminate].
  destruct (start_cycles_ok _ _ _ _ _ M2 H) as (B1 & B2 & _ & B3).
  split; [auto|]. split; [congruence|]. intros h j v Hv. pose proof (is_variable_view s h j v Hv) as Vv.
  destruct (A3 h j v Hv) as [Ain Anot]. split.
  - intro Hin. destruct (ap_variable (v_app v)) eqn:Ev.
    + destruct Ain as (d & Gd & Sd). { apply filter_In. auto. }
      exists d. split.
      * destruct (B3 h j _ Sd) as [_ Bnot]. apply Bnot. intro Hf. apply filter_In in Hf. destruct Hf as [_ Hf].
        rewrite Vv in Hf. discriminate.
      * split; [|discriminate]. intros _. cbn [fst snd] in Gd. destruct (mget (s_load_dur s) h j) as [ld|] eqn:El; simpl in Gd; [|discriminate].
        injection Gd as <-. apply mget_ok in El. destruct Hv as (_ & _ & _ & _ & V5 & _).
        rewrite (at2_fun _ _ _ _ _ _ El V5). reflexivity.
    + assert (Sv : sees s1 h j v). { apply Anot. intro Hf. apply filter_In in Hf. destruct Hf as [_ Hf]. rewrite Vv in Hf. discriminate. }
      destruct (B3 h j v Sv) as [Bin _]. destruct Bin as (d & Gd & Sd). { apply filter_In. rewrite Vv. auto. }
      exists d. split; [exact Sd|]. split; [discriminate|]. intros _. exact (sample_duration_ok _ _ _ _ _ _ Sv Gd).
  - intro Hnot. assert (Sv : sees s1 h j v). { apply Anot. intro Hf. apply filter_In in Hf. tauto. }
    destruct (B3 h j v Sv) as [_ Bnot]. apply Bnot. intro Hf. apply filter_In in Hf. tauto.
Qed.

(** Repeated ticks. *)
Fixpoint ticks (n : nat) (l : Q) : Q := match n with O => l | S n => tick_left (ticks n l) end.
Fixpoint rticks (n : nat) (r : Z) : Z := match n with O => r | S n => tick_refresh (rticks n r) end.

Lemma qn_S : forall n, qn (S n) == qn n + 1.
Proof. intro n. unfold qn. rewrite Nat2Z.inj_succ, <- Z.add_1_r, inject_Z_plus. reflexivity. Qed.
Lemma qn_le : forall n m, (n <= m)%nat -> qn n <= qn m.
Proof. intros. unfold qn. rewrite <- Zle_Qle. lia. Qed.
Lemma qn_nonneg : forall n, 0 <= qn n.
Proof. intro n. apply (qn_le 0 n). lia. Qed.

Lemma ticks_val : forall n d, (qn n < d + 1 -> ticks n d == d - qn n) /\ (d + 1 <= qn n -> ticks n d <= 0).
Proof.
  intros n d. induction n as [|n [IH1 IH2]].
  - simpl. change (qn 0) with 0. split; intros; lra.
  - simpl. unfold tick_left. pose proof (qn_S n) as E. destruct (Qltb 0 (ticks n d)) eqn:T.
    + apply Qltb_lt in T. split; intro H.
      * rewrite IH1 by lra. lra.
      * destruct (Qlt_le_dec (qn n) (d + 1)) as [L|L]; [rewrite (IH1 L) in *; lra|]. specialize (IH2 L). lra.
    + apply Qltb_ge in T. split; intro H; [|lra]. assert (L : qn n < d + 1) by lra. rewrite (IH1 L) in *. lra.
Qed.

Lemma ticks_pos : forall n d, 0 < ticks n d <-> qn n < d.
Proof.
  intros n d. destruct (ticks_val n d) as [H1 H2]. destruct (Qlt_le_dec (qn n) (d + 1)) as [L|L].
  - rewrite (H1 L). split; intro; lra.
  - specialize (H2 L). split; intro; lra.
Qed.

Lemma rticks_val : forall n r, rticks n r = if (r <=? 0)%Z then r else Z.max 0 (r - Z.of_nat n).
Proof.
  intros n r. induction n as [|n IH].
  - simpl. destruct (Z.leb_spec r 0); lia.
  - cbn [rticks]. rewrite IH. unfold tick_refresh. destruct (Z.leb_spec r 0).
    + destruct (Z.ltb_spec 0 r); lia.
    + destruct (Z.ltb_spec 0 (Z.max 0 (r - Z.of_nat n))); lia.
Qed.

Lemma rticks_done : forall n r, (rticks n r <= 0)%Z <-> (r <= Z.of_nat n)%Z.
Proof. intros n r. rewrite rticks_val. destruct (Z.leb_spec r 0); lia. Qed.

Lemma after_sees : forall n s h j v, sees s h j v -> sees (after n s) h j (recount v (ticks n (v_left v)) (rticks n (v_refresh v))).
Proof.
  induction n as [|n IH]; intros s h j v H; simpl.
  - destruct v; exact H.
  - exact (base_step_sees _ _ _ _ (IH _ _ _ _ H)).
Qed.

Lemma usage_true : forall s h j v, sees s h j v -> (at2 (get_current_usage s) h j true <-> v_own v = true /\ 0 < v_left v).
Proof.
  intros s h j v H. rewrite (usage_at _ _ _ _ _ H). rewrite <- Qltb_lt. destruct (Qltb 0 (v_left v)), (v_own v); simpl; intuition congruence.
Qed.

Lemma mask_true : forall s h j v, sees s h j v ->
  (at2 (get_mask_available_appliances s) h j true <-> v_own v = true /\ v_left v <= 0 /\ (v_refresh v <= 0)%Z).
Proof.
  intros s h j v H. rewrite (mask_at _ _ _ _ _ H). rewrite <- Qleb_le, <- Z.leb_le.
  destruct (Qle_bool (v_left v) 0), (v_own v), (v_refresh v <=? 0)%Z; simpl; intuition congruence.
Qed.

Lemma cycle_after : forall s vol idx s' h j v, switch_on s vol idx = Ok s' -> In (h, j) idx -> sees s h j v ->
  exists d, ((ap_variable (v_app v) = true -> d == qn (v_dur v)) /\ (ap_variable (v_app v) = false -> cycle_length v (vol h j) d)) /\
    forall n, (at2 (get_current_usage (after n s')) h j true <-> v_own v = true /\ qn n < d) /\
              (at2 (get_mask_available_appliances (after n s')) h j true <->
               v_own v = true /\ d <= qn n /\ (trunc (d + inject_Z (ap_delay (v_app v))) <= Z.of_nat n)%Z).
Proof.
  intros s vol idx s' h j v H Hin Hv. destruct (switch_on_ok _ _ _ _ H) as (_ & _ & A). destruct (A h j v Hv) as [A1 _].
  destruct (A1 Hin) as (d & Sd & Cd). exists d. split; [exact Cd|]. intro n.
  pose proof (after_sees n _ _ _ _ Sd) as Sn. simpl in Sn. split.
  - rewrite (usage_true _ _ _ _ Sn). simpl. rewrite ticks_pos. reflexivity.
  - rewrite (mask_true _ _ _ _ Sn). simpl. rewrite rticks_done.
    pose proof (ticks_pos n d) as T. unfold refresh_after. split; intros (P1 & P2 & P3); (split; [exact P1|split; [|exact P3]]).
    + apply Qnot_lt_le. intro L. apply T in L. lra.
    + apply Qnot_lt_le. intro L. apply T in L. lra.
Qed.

(** ** Occupancy simulator *)

Lemma is_water_view : forall s h j v, sees s h j v -> is_water s (h, j) = ap_water (v_app v).
Proof. intros s h j v (V1 & _). unfold is_water. simpl. unfold at_ in V1. rewrite V1. reflexivity. Qed.

Lemma occ_switch_on_ok : forall s s' vol vol2 idx, occ_switch_on s vol vol2 idx = Ok s' ->
  (forall n, simulates n s -> simulates n s') /\ s_apps s' = s_apps s /\
  forall h j v, sees s h j v ->
    (In (h, j) idx -> exists d, occ_cycle_length v (vol2 h j) d /\ sees s' h j (recount v d (refresh_after (v_app v) d))) /\
    (~ In (h, j) idx -> sees s' h j v).
Proof.
  intros s s' vol vol2 idx H. unfold occ_switch_on in H.
  destruct (switch_on_constant_loads s vol idx) as [s1|] eqn:E1; simpl in H; [|discriminate].
  unfold switch_on_constant_loads in E1.
  match type of E1 with bind (mapM ?f ?l) _ = _ => destruct (mapM f l) as [ds1|] eqn:M1 end; simpl in E1; [|discriminate].
  destruct (start_cycles_ok _ _ _ _ _ M1 E1) as (A1 & A2 & _ & A3).
  unfold switch_on_water_fixtures in H.
  match type of H with bind (mapM ?f ?l) _ = _ => destruct (mapM f l) as [ds2|] eqn:M2 end; simpl in H; [|discriminate].
  destruct (start_cycles_ok _ _ _ _ _ M2 H) as (B1 & B2 & _ & B3).
  split; [auto|]. split; [congruence|]. intros h j v Hv. pose proof (is_water_view s h j v Hv) as Vv.
  destruct (A3 h j v Hv) as [Ain Anot]. split.
  - intro Hin. destruct (Ain Hin) as (d & Gd & Sd). destruct (B3 h j _ Sd) as [Bin Bnot].
    destruct (ap_water (v_app v)) eqn:Ew.
    + destruct Bin as (d2 & Gd2 & Sd2). { apply filter_In. rewrite Vv. auto. }
      exists d2. split; [|exact Sd2]. cbn [fst snd] in Gd2.
      destruct Sd as (W1 & _). simpl in W1. apply vget_ok in W1. rewrite W1 in Gd2. simpl in Gd2.
      unfold water_duration in Gd2. destruct (Qeq_bool (ap_flow (v_app v)) 0) eqn:Ef; [discriminate|]. injection Gd2 as <-.
      apply Qeq_bool_neq in Ef. split; [intros _; field; exact Ef|]. split; intro; congruence.
    + exists d. split.
      * pose proof (sample_duration_ok _ _ _ _ _ _ Hv Gd) as (C1 & C2 & C3). split; [intro; congruence|]. split; auto.
      * apply Bnot. intro Hf. apply filter_In in Hf. destruct Hf as [_ Hf]. rewrite Vv in Hf. discriminate.
  - intro Hnot. destruct (B3 h j _ (Anot Hnot)) as [_ Bnot]. apply Bnot. intro Hf. apply filter_In in Hf. tauto.
Qed.

Lemma at_seq : forall n m i x, at_ (seq n m) i x <-> (i < m)%nat /\ x = (n + i)%nat.
Proof.
  intros n m. revert n. unfold at_. induction m as [|m IH]; intros n i x; simpl.
  - destruct i; split; [discriminate|lia|discriminate|lia].
  - destruct i as [|i]; simpl.
    + split; [intros [= <-]; lia|intros [_ ->]; f_equal; lia].
    + rewrite IH. lia.
Qed.

Lemma draw_below_at : forall u P h j b, at2 (draw_below u P) h j b <-> exists p, at2 P h j p /\ b = Qltb (u h j) p.
Proof.
  intros u P h j b. unfold draw_below, at2. split.
  - intros (row & H1 & H2). apply at_map2 in H1. destruct H1 as (h' & r & H1 & H3 & ->). apply at_seq in H1. destruct H1 as [_ ->].
    apply at_map2 in H2. destruct H2 as (j' & p & H4 & H5 & ->). apply at_seq in H4. destruct H4 as [_ ->]. simpl. eauto.
  - intros (p & (r & H1 & H2) & ->). eexists. split; apply at_map2.
    + exists h, r. split; [apply at_seq; split; [eapply at_lt; eauto|lia]|]. split; [exact H1|reflexivity].
    + exists j, p. split; [apply at_seq; split; [eapply at_lt; eauto|lia]|]. split; [exact H2|reflexivity].
Qed.

Lemma switchon_probs_at : forall s i h j v P, get_switchon_probs s (i_pdf i) (i_types i) (i_occ i) = Ok P ->
  length (i_occ i) = length (s_left s) -> sees s h j v ->
  exists q, activity_prob i h (v_app v) q /\
    at2 P h j (b2q (v_own v && Qle_bool (v_left v) 0 && (v_refresh v <=? 0)%Z) * ap_prob (v_app v) * q).
Proof.
  intros s i h j v P H Hlen Hv. unfold get_switchon_probs in H.
  destruct (Nat.eqb_spec (length (i_types i)) (length (i_occ i))) as [Et|]; simpl in H; [|discriminate].
  match type of H with bind (mapM ?f ?l) _ = _ => destruct (mapM f l) as [hp|] eqn:M1 end; simpl in H; [|discriminate].
  match type of H with bind (mapM ?f ?l) _ = _ => destruct (mapM f l) as [pa|] eqn:M2 end; simpl in H; [|discriminate].
  injection H as <-.
  assert (Hh : (h < length (i_occ i))%nat). { rewrite Hlen. destruct Hv as (_ & _ & (r & H & _) & _). eapply at_lt; eauto. }
  destruct (lt_at _ _ _ Hh) as [n Hn]. destruct (lt_at _ (i_types i) h) as [t Ht]; [lia|].
  assert (Hc : nth_error (combine (i_types i) (i_occ i)) h = Some (t, n)).
  { clear -Ht Hn. unfold at_ in *. revert Ht Hn. generalize (i_types i), (i_occ i). induction h as [|h IH]; intros [|x l] [|y m]; simpl; intros; try discriminate.
    - congruence.
    - auto. }
  destruct (mapM_ok _ _ _ _ _ M1) as [_ K1]. destruct (K1 h _ Hc) as (probs & Hp & Ep).
  destruct (mapM_ok _ _ _ _ _ M2) as [_ K2]. destruct (K2 h _ Hp) as (row & Hrow & Erow).
  destruct (mapM_ok _ _ _ _ _ Erow) as [_ K3]. destruct Hv as (V1 & Vrest). destruct (K3 j _ V1) as (q & Hq & Eq).
  apply vget_ok in Eq. unfold activity_probs in Ep. cbn [fst snd] in Ep.
  destruct (vget (i_pdf i) t) as [acts|] eqn:Ea; simpl in Ep; [|discriminate]. apply vget_ok in Ea.
  destruct (Z.ltb_spec n 0) as [|Hn0]; [discriminate|].
  exists q. split.
  - destruct (mapM_ok _ _ _ _ _ Ep) as [Elen K4].
    destruct (lt_at _ acts (ap_act (v_app v))) as [bo Hbo]. { rewrite <- Elen. eapply at_lt; exact Eq. }
    destruct (K4 _ _ Hbo) as (q' & Hq' & Eq'). unfold at_ in Eq. rewrite Hq' in Eq. injection Eq as ->. apply vget_ok in Eq'.
    exists t, n, acts, bo. auto 10.
  - apply at2_mmap2. exists (b2q (v_own v && Qle_bool (v_left v) 0 && (v_refresh v <=? 0)%Z) * ap_prob (v_app v)), q.
    split; [|split; [exists row; auto|reflexivity]].
    apply at2_mrow. eexists _, (v_app v). split; [|split; [exact V1|reflexivity]]. apply at2_map. eexists. split; [|reflexivity].
    apply (mask_at s h j v); [split; assumption|reflexivity].
Qed.

Lemma activity_prob_fun : forall i h a q q', activity_prob i h a q -> activity_prob i h a q' -> q = q'.
Proof.
  intros i h a q q' (t & n & acts & bo & H1 & H2 & H3 & H4 & H5 & H6) (t' & n' & acts' & bo' & G1 & G2 & G3 & G4 & G5 & G6).
  unfold at_ in *. congruence.
Qed.

Definition off_flag (i : occ_in) (h : nat) (v : view) : bool :=
  match nth_error (i_occ i) h with Some n => Z.eqb n 0 && ap_off (v_app v) | None => false end.

Lemma off_flag_spec : forall i h v, off_flag i h v = true <-> forced_off i h v.
Proof.
  intros i h v. unfold off_flag, forced_off, at_. destruct (nth_error (i_occ i) h) as [n|].
  - rewrite andb_true_iff, Z.eqb_eq. split; intros [H1 H2]; split; congruence.
  - split; [discriminate|intros [H _]; discriminate].
Qed.

Lemma switch_off_sees : forall s i h j v, length (i_occ i) = length (s_left s) -> sees s h j v ->
  sees (switch_off_inactive s (i_occ i)) h j
    (recount v (if off_flag i h v then 0 else v_left v) (if off_flag i h v then Z.min (v_refresh v) (ap_delay (v_app v)) else v_refresh v)).
Proof.
  intros s i h j v Hlen (V1 & V2 & V3 & V4 & V5 & V6). unfold off_flag.
  destruct V3 as (rl & Hrl & Hl). destruct V4 as (rr & Hrr & Hr).
  destruct (lt_at _ (i_occ i) h) as [n Hn]. { rewrite Hlen. eapply at_lt; exact Hrl. }
  assert (E : nth_error (i_occ i) h = Some n) by exact Hn. rewrite E.
  repeat split; simpl; try assumption.
  - eexists. split; [apply at_map2; exists n, rl; split; [exact Hn|split; [exact Hrl|reflexivity]]|]. apply at_map2.
    exists (v_left v), (v_app v). auto.
  - eexists. split; [apply at_map2; exists n, rr; split; [exact Hn|split; [exact Hrr|reflexivity]]|]. apply at_map2.
    exists (v_refresh v), (v_app v). auto.
Qed.

Lemma shaped_occ : forall A B C (f : Z -> A -> B -> C) n k (m : list (list A)) occ apps, shaped n k m -> length occ = n -> length apps = k ->
  shaped n k (map2 (fun z row => map2 (f z) row apps) occ m).
Proof.
  intros A B C f n k m occ apps [H1 H2] Ho Ha. split; [rewrite map2_length; lia|]. intros h row H. apply at_map2 in H.
  destruct H as (z & r & Hz & Hr & ->). rewrite map2_length, (H2 _ _ Hr). lia.
Qed.

Lemma occ_step_sees : forall n s i s' , simulates n s -> draws i -> occ_do s i = Ok s' ->
  simulates n s' /\ s_apps s' = s_apps s /\
  forall h j v, sees s h j v ->
    exists l1 r1,
      ((may_start i h j v /\ exists d, occ_cycle_length v (i_vol2 i h j) d /\ l1 = d /\ r1 = refresh_after (v_app v) d) \/
       (~ may_start i h j v /\ l1 = v_left v /\ r1 = v_refresh v)) /\
      sees s' h j (recount v (tick_left (if off_flag i h v then 0 else l1))
                            (tick_refresh (if off_flag i h v then Z.min r1 (ap_delay (v_app v)) else r1))).
Proof.
  intros n s i s' Hs Hu H. unfold occ_do, occ_step in H.
  destruct (Nat.eqb_spec (length (i_occ i)) (length (s_left s))) as [El|]; simpl in H; [|discriminate].
  destruct (get_switchon_probs s (i_pdf i) (i_types i) (i_occ i)) as [P|] eqn:EP; simpl in H; [|discriminate].
  destruct (occ_switch_on s (i_vol i) (i_vol2 i) (where2 (draw_below (i_u i) P))) as [s1|] eqn:E1; simpl in H; [|discriminate].
  injection H as <-. destruct (occ_switch_on_ok _ _ _ _ _ E1) as (A1 & A2 & A3).
  specialize (A1 n Hs). pose proof A1 as (N1 & N2 & N3 & N4 & N5).
  assert (El1 : length (i_occ i) = length (s_left s1)).
  { destruct Hs as (_ & [L _] & _). destruct N2 as [L2 _]. congruence. }
  split; [|split; [exact A2|]].
  - apply base_step_simulates. unfold simulates; simpl. destruct N2 as [L2 L2'] eqn:EE.
    split; [exact N1|]. split; [|split; [|split; [exact N4|exact N5]]].
    + apply (shaped_occ _ _ _ (fun z l a => if Z.eqb z 0 && ap_off a then 0 else l)); auto. congruence.
    + apply (shaped_occ _ _ _ (fun z r a => if Z.eqb z 0 && ap_off a then Z.min r (ap_delay a) else r)); auto. congruence.
  - intros h j v Hv. destruct (switchon_probs_at _ _ _ _ _ _ EP El Hv) as (q & Hq & Hp).
    destruct (A3 h j v Hv) as [Ain Anot].
    assert (Hms : may_start i h j v <-> In (h, j) (where2 (draw_below (i_u i) P))).
    { rewrite where2_in, draw_below_at. unfold may_start. rewrite <- Qleb_le, <- Z.leb_le. split.
      - intros (M1 & M2 & M3 & q' & Hq' & Hlt). rewrite (activity_prob_fun _ _ _ _ _ Hq' Hq) in Hlt.
        eexists. split; [exact Hp|]. rewrite M1, M2, M3. simpl. symmetry. apply Qltb_lt. lra.
      - intros (p & Hp' & Ep). rewrite (at2_fun _ _ _ _ _ _ Hp' Hp) in Ep. symmetry in Ep. apply Qltb_lt in Ep.
        pose proof (Hu h j) as U.
        destruct (v_own v && Qle_bool (v_left v) 0 && (v_refresh v <=? 0)%Z) eqn:Em; simpl in Ep; [|lra].
        apply andb_true_iff in Em. destruct Em as [Em M3]. apply andb_true_iff in Em. destruct Em as [M1 M2].
        rewrite M1, M2, M3. repeat split; auto. exists q. split; [exact Hq|lra]. }
    destruct (in_dec (fun a b : nat * nat => ltac:(decide equality; apply Nat.eq_dec)) (h, j) (where2 (draw_below (i_u i) P))) as [Hin|Hnot].
    + destruct (Ain Hin) as (d & Cd & Sd). exists d, (refresh_after (v_app v) d). split.
      * left. split; [apply Hms; exact Hin|]. eauto.
      * pose proof (switch_off_sees _ i _ _ _ El1 Sd) as S2. exact (base_step_sees _ _ _ _ S2).
    + exists (v_left v), (v_refresh v). split.
      * right. split; [rewrite Hms; exact Hnot|auto].
      * pose proof (switch_off_sees _ i _ _ _ El1 (Anot Hnot)) as S2. exact (base_step_sees _ _ _ _ S2).
Qed.
