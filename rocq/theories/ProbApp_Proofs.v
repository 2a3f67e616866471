(** * Proofs about appliances started at random: one step. *)

From Coq Require Import String List ZArith QArith Bool Arith Lia Lqa.
From Verif Require Import Prelude PreludeFacts SpecBase SpecBaseFacts Parse_Model Appliance_Model Appliance_Spec AppSetup_Model AppSetup_Spec ActApp_Model ActApp_Spec ProbApp_Model ProbApp_Spec.
From Verif Require Import Matrix_Proofs Appliance_Proofs Appliance_RunProofs Appliance_TypeProofs AppSetup_Proofs AppSetup_InitProofs ActApp_Proofs.
Import ListNotations.
Local Open Scope nat_scope.

Lemma drawn_below : forall u c, drawn u c = true <-> below u c.
Proof. intros u [q| |]; simpl; [apply Qltb_lt|tauto|intuition discriminate]. Qed.

Lemma drawn_gate : forall u b c, (0 <= u)%Q -> drawn u (gate b c) = b && drawn u c.
Proof.
  intros u b [q| |] Hu; simpl; [|destruct b; reflexivity|destruct b; reflexivity]. destruct b; simpl.
  - destruct (Qltb u q) eqn:E.
    + apply Qltb_lt in E. apply Qltb_lt. lra.
    + destruct (Qltb u (1 * q)) eqn:E'; [|reflexivity]. apply Qltb_lt in E'. assert (X : Qltb u q = true) by (apply Qltb_lt; lra). congruence.
  - destruct (Qltb u (0 * q)) eqn:E; [|reflexivity]. apply Qltb_lt in E. lra.
Qed.

Lemma sampled_in : forall K (u : K -> Q) (prob : K -> result chance) l out, sampled u prob l = Ok out ->
  forall k, In k out <-> In k l /\ exists p, prob k = Ok p /\ drawn (u k) p = true.
Proof.
  unfold sampled. intros K u prob. induction l as [|a l IH]; intros out H k; cbn [mapM] in H.
  - injection H as <-. simpl. tauto.
  - destruct (prob a) as [p|] eqn:E; [|discriminate]. cbn [bind] in H. destruct (mapM prob l) as [ps|] eqn:El; [|discriminate]. cbn [bind] in H.
    cbn [map2 compress] in H. specialize (IH _ eq_refl k).
    assert (Hk : k = a -> (exists p0, prob k = Ok p0 /\ drawn (u k) p0 = true) -> drawn (u a) p = true) by (intros -> (p0 & E0 & D); congruence).
    destruct (drawn (u a) p) eqn:D; injection H as <-; simpl; rewrite IH.
    + split; [intros [<-|[I X]]; eauto 6|]. intros [[<-|I] X]; auto.
    + split; [intros [I X]; auto|]. intros [[->|I] X]; auto. specialize (Hk eq_refl X). discriminate.
Qed.

Lemma switch_on_data : forall s s' vol idx, switch_on s vol idx = Ok s' -> same_data s s'.
Proof.
  intros s s' vol idx H. unfold switch_on, switch_on_variable_loads, switch_on_constant_loads in H.
  destruct (mapM _ (filter (is_variable s) idx)) as [d1|]; [|discriminate]. cbn [bind] in H.
  destruct (start_cycles s _ d1) as [s1|] eqn:E1; [|discriminate]. cbn [bind] in H.
  destruct (mapM _ _) as [d2|]; [|discriminate]. cbn [bind] in H.
  eapply same_data_trans; eapply start_cycles_data; eauto.
Qed.

(** ** Changes of one appliance *)

Definition cyc (v w : view) : Prop :=
  exists d, w = recount v d (refresh_after (v_app v) d) /\ (ap_variable (v_app v) = true -> d == qn (v_dur v))%Q /\
    (ap_variable (v_app v) = false -> exists vol, cycle_length v vol d).
Definition off_view (v : view) : view := recount v 0 (ap_delay (v_app v)).

Fixpoint evolve (v : view) (ops : list bool) (w : view) : Prop :=
  match ops with
  | [] => w = v
  | b :: t => exists v1, (if b : bool then cyc v v1 else v1 = off_view v) /\ evolve v1 t w
  end.

Lemma evolve_app : forall a b v v1 w, evolve v a v1 -> evolve v1 b w -> evolve v (a ++ b) w.
Proof.
  induction a as [|x a IH]; intros b v v1 w H1 H2; simpl in *; [subst; exact H2|]. destruct H1 as (u & Hu & H1). exists u. split; [exact Hu|]. eapply IH; eauto.
Qed.

Lemma cyc_cyc : forall v v1 w, cyc v v1 -> cyc v1 w -> cyc v w.
Proof. intros v v1 w (d & -> & _) (e & -> & X & Y). exists e. auto. Qed.

Lemma evolve_static : forall ops v w, evolve v ops w -> same_static v w.
Proof.
  induction ops as [|b ops IH]; intros v w H; simpl in H.
  - subst w. repeat split.
  - destruct H as (v1 & H1 & H2). apply IH in H2. assert (X : same_static v v1) by (destruct b; [destruct H1 as (d & -> & _)|subst v1]; repeat split).
    destruct X as (X1 & X2 & X3 & X4). destruct H2 as (Y1 & Y2 & Y3 & Y4). unfold same_static. intuition congruence.
Qed.

Lemma evolve_last : forall ops v w, evolve v ops w -> ops <> [] -> (last ops false = true -> cyc v w) /\ (last ops false = false -> w = off_view v).
Proof.
  induction ops as [|b ops IH]; intros v w H N; [contradiction|]. destruct H as (v1 & H1 & H2). destruct ops as [|b' ops].
  - simpl in H2. subst w. simpl. split; intros ->; exact H1.
  - destruct (IH v1 w H2) as [A B]; [discriminate|]. change (last (b :: b' :: ops) false) with (last (b' :: ops) false).
    assert (X : same_static v v1 /\ v_app v1 = v_app v) by (destruct b; [destruct H1 as (d & -> & _)|subst v1]; split; repeat split).
    split; intro L.
    + destruct (A L) as (d & -> & Y1 & Y2). exists d. destruct b; [destruct H1 as (e & -> & _)|subst v1]; auto.
    + rewrite (B L). destruct b; [destruct H1 as (e & -> & _)|subst v1]; reflexivity.
Qed.

(** ** Parts of a step *)

Definition fixed (st st' : probsim) : Prop :=
  same_data (p_base st) (p_base st') /\ (forall n, simulates n (p_base st) -> simulates n (p_base st')) /\
  p_related st' = p_related st /\ p_after st' = p_after st /\ p_follows st' = p_follows st /\ p_probs st' = p_probs st /\ p_prev st' = p_prev st.
Lemma fixed_refl : forall st, fixed st st.
Proof. intro st. split; [apply same_data_refl|]. auto 10. Qed.
Lemma fixed_trans : forall a b c, fixed a b -> fixed b c -> fixed a c.
Proof.
  intros a b c (A1 & A2 & A3 & A4 & A5 & A6 & A7) (B1 & B2 & B3 & B4 & B5 & B6 & B7). split; [eapply same_data_trans; eauto|]. split; [auto|].
  repeat split; congruence.
Qed.

Lemma look_seen : forall st, p_seen (look st) = Some (usage_read st).
Proof. reflexivity. Qed.
Lemma look_fixed : forall st, fixed st (look st).
Proof. intro st. split; [apply same_data_refl|]. simpl. auto 10. Qed.

Lemma prob_off_ok : forall s idx s', prob_switch_off s idx = Ok s' ->
  same_data s s' /\ (forall n, simulates n s -> simulates n s') /\
  forall h j v, sees s h j v -> (In (h, j) idx -> sees s' h j (off_view v)) /\ (~ In (h, j) idx -> sees s' h j v).
Proof.
  unfold prob_switch_off. intros s idx s' H. destruct (mput _ (s_left s)) as [left|] eqn:E1; [|discriminate]. cbn [bind] in H.
  destruct (mapM _ idx) as [rs|] eqn:E2; [|discriminate]. cbn [bind] in H. destruct (mput rs (s_refresh s)) as [refresh|] eqn:E3; [|discriminate]. cbn [bind] in H.
  injection H as <-. destruct (mput_ok _ _ _ _ E1) as (A1 & A2 & A3). destruct (mput_ok _ _ _ _ E3) as (B1 & B2 & B3).
  split; [unfold same_data; simpl; auto|]. split. { intros n (S1 & S2 & S3 & S4 & S5). unfold simulates. simpl. auto 10. }
  assert (Keys : forall k r, In (k, r) rs -> In k idx /\ exists a, at_ (s_apps s) (snd k) a /\ r = ap_delay a).
  { intros k r I. clear -E2 I. revert rs E2 I. induction idx as [|x idx IH]; intros rs E I; cbn [mapM] in E.
    - injection E as <-. contradiction.
    - destruct (vget (s_apps s) (snd x)) as [a|] eqn:Ea; [|discriminate]. cbn [bind] in E. destruct (mapM _ idx) as [rs'|]; [|discriminate]. cbn [bind] in E. injection E as <-.
      destruct I as [I|I]; [|destruct (IH _ eq_refl I) as [X Y]; split; [right; exact X|exact Y]]. injection I as <- <-. split; [left; reflexivity|]. exists a. split; [apply vget_ok; exact Ea|reflexivity]. }
  assert (Keys2 : forall k, In k idx -> exists r, In (k, r) rs).
  { intros k I. clear -E2 I. revert rs E2. induction idx as [|x idx IH]; intros rs E; [contradiction|]. cbn [mapM] in E.
    destruct (vget (s_apps s) (snd x)) as [a|]; [|discriminate]. cbn [bind] in E. destruct (mapM _ idx) as [rs'|]; [|discriminate]. cbn [bind] in E. injection E as <-.
    destruct I as [<-|I]; [eexists; left; reflexivity|]. destruct (IH I _ eq_refl) as [r X]. exists r. right. exact X. }
  intros h j v (V1 & V2 & V3 & V4 & V5 & V6). split; intro I.
  - repeat split; simpl; auto.
    + destruct (A1 h j) as (x & Ix & Ax). { exists 0%Q. apply in_map_iff. eauto. } apply in_map_iff in Ix. destruct Ix as (k & Ek & _). injection Ek as _ <-. exact Ax.
    + destruct (Keys2 _ I) as [r Ir]. destruct (B1 h j) as (x & Ix & Ax); [eauto|]. destruct (Keys _ _ Ix) as (_ & a & Ea & ->). simpl in Ea.
      rewrite (at_fun _ _ _ _ _ V1 Ea). exact Ax.
  - repeat split; simpl; auto.
    + apply A2; [|exact V3]. intro X. rewrite map_map in X. apply in_map_iff in X. destruct X as (k & Ek & X). simpl in Ek. subst k. contradiction.
    + apply B2; [|exact V4]. intro X. apply in_map_iff in X. destruct X as ([k r] & Ek & X). simpl in Ek. subst k. destruct (Keys _ _ X). contradiction.
Qed.

Lemma on_ok : forall s vol idx s', switch_on s vol idx = Ok s' ->
  same_data s s' /\ (forall n, simulates n s -> simulates n s') /\
  forall h j v, sees s h j v -> (In (h, j) idx -> exists w, cyc v w /\ sees s' h j w) /\ (~ In (h, j) idx -> sees s' h j v).
Proof.
  intros s vol idx s' H. pose proof (switch_on_data _ _ _ _ H) as D. destruct (switch_on_ok _ _ _ _ H) as (A & _ & B). split; [exact D|]. split; [exact A|].
  intros h j v Hv. destruct (B h j v Hv) as [C1 C2]. split; [|exact C2]. intro I. destruct (C1 I) as (d & Sd & X & Y). eexists. split; [|exact Sd].
  exists d. split; [reflexivity|]. split; [exact X|]. intro Va. exists (vol h j). auto.
Qed.

(** A call of [switch_on] on sampled positions. *)
Definition go_op (b : bool) (v w : view) : Prop := if b then cyc v w else w = v.

Lemma evolve_go : forall b v w, go_op b v w -> evolve v (if b then [true] else []) w.
Proof. intros [|] v w H; simpl in *; [exists w; auto|exact H]. Qed.

Lemma after_ok : forall d act stops st st' af, fair d -> p_after st = Some af -> after_step d act stops st = Ok st' ->
  fixed st st' /\ p_seen st' = Some (usage_read st) /\
  forall h j v b p, sees (p_base st) h j v -> at2 (usage_read st) h j b -> at2 (p_probs st) h j p ->
    exists g w, go_op g v w /\ sees (p_base st') h j w /\
      (g = true <-> b = false /\ at_ stops h true /\ at_ af j act /\ drawn (d_after d act h j) p = true).
Proof.
  unfold after_step. intros d act stops st st' af Fd Ea H. rewrite Ea in H.
  destruct (sampled _ _ _) as [chosen|] eqn:Es; [|discriminate]. cbn [bind] in H. destruct (switch_on _ _ _) as [s|] eqn:Eo; [|discriminate]. cbn [bind] in H. injection H as <-.
  destruct (on_ok _ _ _ _ Eo) as (D & S & C). split; [split; [exact D|]; simpl; auto 10|]. split; [reflexivity|].
  intros h j v b p Hv Hb Hp. destruct (C h j v Hv) as [C1 C2].
  assert (I : In (h, j) chosen <-> b = false /\ at_ stops h true /\ at_ af j act /\ drawn (d_after d act h j) p = true).
  { rewrite (sampled_in _ _ _ _ _ Es). rewrite cross_in, mask_row. unfold one_time_prob. simpl fst. simpl snd. simpl p_probs.
    change (usage_read (look st)) with (usage_read st). apply mget_ok in Hb. apply mget_ok in Hp. rewrite Hb, Hp. cbn [bind]. destruct Fd as (_ & Fd & _).
    split.
    - intros ((A & B) & q & Eq & T). injection Eq as <-. rewrite drawn_gate in T by apply Fd. apply andb_true_iff in T. destruct T as [T1 T2]. apply negb_true_iff in T1. auto.
    - intros (-> & A & B & T). split; [auto|]. eexists. split; [reflexivity|]. rewrite drawn_gate by apply Fd. exact T. }
  destruct (negb b && existsb (fun k => Nat.eqb (fst k) h && Nat.eqb (snd k) j) chosen) eqn:G.
  - apply andb_true_iff in G. destruct G as [_ G]. apply existsb_exists in G. destruct G as ([h' j'] & In' & G). simpl in G. apply andb_true_iff in G.
    destruct G as [G1 G2]. apply Nat.eqb_eq in G1, G2. subst h' j'. destruct (C1 In') as (w & W1 & W2). exists true, w. split; [exact W1|]. split; [exact W2|]. rewrite <- I. tauto.
  - exists false, v. split; [reflexivity|]. assert (N : ~ In (h, j) chosen).
    { intro X. pose proof (proj1 I X) as (-> & _). cbn [negb andb] in G. assert (Y : existsb (fun k => Nat.eqb (fst k) h && Nat.eqb (snd k) j) chosen = true); [|congruence].
      apply existsb_exists. exists (h, j). simpl. rewrite !Nat.eqb_refl. auto. }
    split; [exact (C2 N)|]. rewrite <- I. split; [discriminate|contradiction].
Qed.

Lemma activity_ok : forall d act occurs st st', fair d -> activity_step d act occurs st = Ok st' ->
  fixed st st' /\ p_seen st' = Some (usage_read st) /\
  forall h j v b p, sees (p_base st) h j v -> at2 (usage_read st) h j b -> at2 (p_probs st) h j p ->
    exists g w, go_op g v w /\ sees (p_base st') h j w /\
      (g = true <-> b = false /\ at_ occurs h true /\ at_ (p_related st) j act /\ dictated st j = false /\ drawn (d_act d act h j) p = true).
Proof.
  unfold activity_step. intros d act occurs st st' Fd H.
  destruct (sampled _ _ _) as [chosen|] eqn:Es; [|discriminate]. cbn [bind] in H. destruct (switch_on _ _ _) as [s|] eqn:Eo; [|discriminate]. cbn [bind] in H. injection H as <-.
  destruct (on_ok _ _ _ _ Eo) as (D & S & C). split; [split; [exact D|]; simpl; auto 10|]. split; [reflexivity|].
  intros h j v b p Hv Hb Hp. destruct (C h j v Hv) as [C1 C2].
  assert (I : In (h, j) chosen <-> b = false /\ at_ occurs h true /\ at_ (p_related st) j act /\ dictated st j = false /\ drawn (d_act d act h j) p = true).
  { rewrite (sampled_in _ _ _ _ _ Es). rewrite cross_in, mask_row. unfold activity_start_prob. simpl fst. simpl snd. simpl p_probs.
    change (usage_read (look st)) with (usage_read st). change (dictated (look st) j) with (dictated st j).
    apply mget_ok in Hb. apply mget_ok in Hp. rewrite Hb, Hp. cbn [bind]. destruct Fd as (_ & _ & Fd).
    split.
    - intros ((A & B) & q & Eq & T). injection Eq as <-. rewrite drawn_gate in T by apply Fd. apply andb_true_iff in T. destruct T as [T1 T2].
      apply andb_true_iff in T1. destruct T1 as [T0 T1]. apply negb_true_iff in T0, T1. auto.
    - intros (-> & A & B & Dc & T). split; [auto|]. eexists. split; [reflexivity|]. rewrite drawn_gate by apply Fd. rewrite Dc. exact T. }
  destruct (negb b && existsb (fun k => Nat.eqb (fst k) h && Nat.eqb (snd k) j) chosen) eqn:G.
  - apply andb_true_iff in G. destruct G as [_ G]. apply existsb_exists in G. destruct G as ([h' j'] & In' & G). simpl in G. apply andb_true_iff in G.
    destruct G as [G1 G2]. apply Nat.eqb_eq in G1, G2. subst h' j'. destruct (C1 In') as (w & W1 & W2). exists true, w. split; [exact W1|]. split; [exact W2|]. rewrite <- I. tauto.
  - exists false, v. split; [reflexivity|]. assert (N : ~ In (h, j) chosen).
    { intro X. pose proof (proj1 I X) as (-> & _). cbn [negb andb] in G. assert (Y : existsb (fun k => Nat.eqb (fst k) h && Nat.eqb (snd k) j) chosen = true); [|congruence].
      apply existsb_exists. exists (h, j). simpl. rewrite !Nat.eqb_refl. auto. }
    split; [exact (C2 N)|]. rewrite <- I. split; [discriminate|contradiction].
Qed.

(** ** The loop over the activities *)

Section Cell.
  Variables (st0 : probsim) (d : pdraws) (af : list string) (h j : nat) (b : bool) (p : chance) (r : string) (ap : app).

  (** The item starts a cycle of the appliance; the item switches it off. *)
  Definition go_at (item : string * list Z) : Prop :=
    (exists i, at_ (p_related st0) i (fst item)) /\ b = false /\ exists c o, at_ (snd item) h c /\ performs (p_prev st0) (fst item) h o /\
      ((at_ af j (fst item) /\ o <> 0%Z /\ c = 0%Z /\ drawn (d_after d (fst item) h j) p = true) \/
       (r = fst item /\ (0 < c)%Z /\ dictated st0 j = false /\ drawn (d_act d (fst item) h j) p = true)).
  Definition off_at (item : string * list Z) : Prop :=
    r = fst item /\ ap_off ap = true /\ exists c o, at_ (snd item) h c /\ performs (p_prev st0) (fst item) h o /\ o <> 0%Z /\ c = 0%Z.

  Lemma turn_cell : forall st item st' U v n, fair d -> fixed st0 st -> simulates n (p_base st) -> p_after st0 = Some af -> at_ (p_related st0) j r -> at_ (s_apps (p_base st0)) j ap ->
    at2 (p_probs st0) h j p -> at2 U h j b -> p_seen st = Some U -> prob_turn d st item = Ok st' -> sees (p_base st) h j v ->
    fixed st0 st' /\ p_seen st' = Some U /\ exists ops w, evolve v ops w /\ sees (p_base st') h j w /\
      (In true ops <-> go_at item) /\ (In false ops <-> off_at item) /\ (go_at item -> last ops false = true).
  Proof.
    intros st [act now] st' U v n Fd Fx Sim Ea Er Eap Hp Hb Es H Hv. pose proof Fx as (F1 & F2 & F3 & F4 & F5 & F6 & F7).
    unfold prob_turn in H. unfold go_at, off_at. cbn [fst snd]. rewrite F3 in H.
    destruct (existsb (fun b => b) (map (String.eqb act) (p_related st0))) eqn:Ex; cbn [negb] in H.
    2:{ injection H as <-. split; [exact Fx|]. split; [exact Es|]. exists [], v. split; [reflexivity|]. split; [exact Hv|].
        assert (N : ~ exists i, at_ (p_related st0) i act) by (intro X; apply some_mask in X; congruence).
        split; [simpl; tauto|]. split; [|tauto]. split; [intros []|]. intros (-> & _). apply N. exists j. exact Er. }
    apply some_mask in Ex. rewrite F7 in H. destruct (dget String.eqb (p_prev st0) act) as [before|] eqn:Ep; [|discriminate].
    destruct (Nat.eqb_spec (length before) (length (s_own (p_base st)))) as [L1|]; [|discriminate].
    destruct (Nat.eqb_spec (length now) (length (s_own (p_base st)))) as [L2|]; [|discriminate]. cbn [andb negb] in H.
    destruct (prob_switch_off _ _) as [s1|] eqn:E1; [|discriminate]. cbn [bind] in H. destruct (after_step _ _ _ _) as [st2|] eqn:E2; [|discriminate]. cbn [bind] in H.
    destruct (prob_off_ok _ _ _ E1) as (O1 & O2 & O3).
    assert (Fb : fixed st (with_base st s1)) by (split; [exact O1|]; simpl; auto 10).
    assert (Ea1 : p_after (with_base st s1) = Some af) by (simpl; congruence).
    destruct (after_ok _ _ _ _ _ _ Fd Ea1 E2) as (X1 & X2 & X3). destruct (activity_ok _ _ _ _ _ Fd H) as (Y1 & Y2 & Y3).
    assert (U1 : usage_read (with_base st s1) = U) by (unfold usage_read; simpl; rewrite Es; reflexivity).
    assert (U2 : usage_read st2 = U) by (unfold usage_read; rewrite X2; exact U1).
    assert (Fx2 : fixed st0 st2) by (eapply fixed_trans; [exact Fx|]; eapply fixed_trans; eauto).
    split; [eapply fixed_trans; eauto|]. split; [congruence|].
    assert (Lh : h < length (s_own (p_base st))).
    { destruct Hv as (_ & V2 & _). destruct V2 as (row & V2 & _). exact (at_lt _ _ _ _ V2). }
    destruct (nth_error before h) as [o|] eqn:Eho; [|apply nth_error_None in Eho; lia].
    destruct (nth_error now h) as [c|] eqn:Ehc; [|apply nth_error_None in Ehc; lia].
    assert (Eapv : ap = v_app v). { destruct Hv as (V1 & _). destruct F1 as (F1 & _). rewrite F1 in V1. exact (at_fun _ _ _ _ _ Eap V1). }
    set (stops := map2 (fun p c => negb (Z.eqb p c) && Z.eqb c 0) before now) in *.
    assert (Sst : at_ stops h true <-> o <> 0%Z /\ c = 0%Z).
    { unfold stops. rewrite at_map2. unfold at_. split.
      - intros (x & y & X & Y & T). symmetry in T. apply andb_true_iff in T. destruct T as [T1 T2]. apply negb_true_iff, Z.eqb_neq in T1. apply Z.eqb_eq in T2. split; congruence.
      - intros [T1 T2]. exists o, c. split; [exact Eho|]. split; [exact Ehc|]. subst c. rewrite (proj2 (Z.eqb_neq o 0) T1). reflexivity. }
    assert (Ioff : In (h, j) (cross stops (map2 andb (map (String.eqb act) (p_related st0)) (map ap_off (s_apps (p_base st))))) <-> r = act /\ ap_off ap = true /\ o <> 0%Z /\ c = 0%Z).
    { rewrite cross_in, Sst, at_map2. split.
      - intros ((T1 & T2) & x & y & X & Y & Z). symmetry in Z. apply andb_true_iff in Z. destruct Z as [-> ->]. apply mask_row in X.
        apply at_map in Y. destruct Y as (a & Ya & Yb). destruct Hv as (V1 & _). rewrite (at_fun _ _ _ _ _ Ya V1) in Yb. split; [exact (at_fun _ _ _ _ _ Er X)|]. split; [congruence|auto].
      - intros (-> & T & T1 & T2). split; [auto|]. exists true, true. split; [apply mask_row; exact Er|]. split; [|reflexivity]. apply at_map. exists (v_app v). split; [apply Hv|congruence]. }
    assert (Pr : forall x, performs (p_prev st0) act h x <-> x = o).
    { intro x. unfold performs. rewrite Ep. split; [intros (l & El & Al); injection El as <-; unfold at_ in Al; congruence|intros ->; eauto]. }
    destruct (O3 h j v Hv) as [O4 O5].
    assert (XX : exists ops0 v1, evolve v ops0 v1 /\ sees s1 h j v1 /\ (ops0 = [] \/ ops0 = [false]) /\ (In false ops0 <-> r = act /\ ap_off ap = true /\ o <> 0%Z /\ c = 0%Z)).
    { destruct (string_dec r act) as [Hr|Hr]; [destruct (ap_off ap) eqn:Ho; [destruct (Z.eq_dec o 0) as [Hz|Hz]; [|destruct (Z.eq_dec c 0) as [Hc|Hc]]|]|].
      4:{ exists [], v. split; [reflexivity|]. split; [apply O5; rewrite Ioff; intros (_ & X & _); discriminate|]. split; [auto|]. split; [intros []|intros (_ & X & _); discriminate]. }
      4:{ exists [], v. split; [reflexivity|]. split; [apply O5; rewrite Ioff; tauto|]. split; [auto|]. split; [intros []|tauto]. }
      1:{ exists [], v. split; [reflexivity|]. split; [apply O5; rewrite Ioff; tauto|]. split; [auto|]. split; [intros []|tauto]. }
      2:{ exists [], v. split; [reflexivity|]. split; [apply O5; rewrite Ioff; tauto|]. split; [auto|]. split; [intros []|tauto]. }
      exists [false], (off_view v). split; [exists (off_view v); split; reflexivity|]. split; [apply O4; apply Ioff; auto|]. split; [auto|]. simpl. tauto. }
    destruct XX as (ops0 & v1 & V1 & V2 & V3 & V4).
    assert (Hp1 : at2 (p_probs (with_base st s1)) h j p) by (simpl; rewrite F6; exact Hp).
    rewrite U1 in X3. destruct (X3 h j v1 b p V2 Hb Hp1) as (g1 & v2 & G1 & G2 & G3).
    assert (Hp2 : at2 (p_probs st2) h j p) by (destruct Fx2 as (_ & _ & _ & _ & _ & -> & _); exact Hp).
    rewrite U2 in Y3. destruct (Y3 h j v2 b p G2 Hb Hp2) as (g2 & w & K1 & K2 & K3).
    assert (R2 : p_related st2 = p_related st0) by (destruct Fx2 as (_ & _ & -> & _); reflexivity).
    assert (D2 : dictated st2 j = dictated st0 j). { unfold dictated. destruct Fx2 as (_ & _ & _ & A1 & A2 & _). rewrite A1, A2. reflexivity. }
    rewrite R2, D2, at_map in K3. rewrite Sst in G3.
    assert (K3' : g2 = true <-> b = false /\ (0 < c)%Z /\ r = act /\ dictated st0 j = false /\ drawn (d_act d act h j) p = true).
    { rewrite K3. split.
      - intros (A1 & (x & A2 & A3) & A4 & A5). unfold at_ in A2. assert (x = c) by congruence. subst x. symmetry in A3. apply Z.ltb_lt in A3.
        split; [exact A1|]. split; [exact A3|]. split; [exact (at_fun _ _ _ _ _ Er A4)|exact A5].
      - intros (A1 & A2 & A3 & A5). split; [exact A1|]. split; [exists c; split; [exact Ehc|symmetry; apply Z.ltb_lt; exact A2]|]. split; [rewrite <- A3; exact Er|exact A5]. }
    clear K3. set (o1 := if g1 then [true] else [] : list bool). set (o2 := if g2 then [true] else [] : list bool).
    exists (ops0 ++ o1 ++ o2)%list, w. split. { eapply evolve_app; [exact V1|]. eapply evolve_app; apply evolve_go; eauto. } split; [exact K2|].
    assert (Go : (exists i, at_ (p_related st0) i act) /\ b = false /\ (exists c o : Z, at_ now h c /\ performs (p_prev st0) act h o /\
        (at_ af j act /\ o <> 0%Z /\ c = 0%Z /\ drawn (d_after d act h j) p = true \/ r = act /\ (0 < c)%Z /\ dictated st0 j = false /\ drawn (d_act d act h j) p = true))
        <-> g1 = true \/ g2 = true).
    { clear -G3 K3' Ehc Pr Ex. rewrite G3, K3'. split.
      - intros (_ & B & c' & o' & A1 & A2 & A3). unfold at_ in A1. assert (c' = c) by congruence. subst c'. apply Pr in A2. subst o'. tauto.
      - intros T. split; [exact Ex|]. split; [tauto|]. exists c, o. split; [exact Ehc|]. split; [apply Pr; reflexivity|]. tauto. }
    split; [|split].
    - rewrite Go, !in_app_iff. unfold o1, o2. clear -V3. destruct V3 as [-> | ->]; destruct g1, g2; simpl; intuition discriminate.
    - rewrite !in_app_iff, V4. unfold o1, o2. clear -Ehc Pr. split.
      + intros [(A & B & C & D)|[A|A]]; [|exfalso; destruct g1; simpl in A; intuition discriminate|exfalso; destruct g2; simpl in A; intuition discriminate].
        split; [exact A|]. split; [exact B|]. exists c, o. split; [exact Ehc|]. split; [apply Pr; reflexivity|auto].
      + intros (A & B & c' & o' & C1 & C2 & C3 & C4). left. unfold at_ in C1. apply Pr in C2. subst o'. assert (c' = c) by congruence. subst c'. auto.
    - rewrite Go. intro T. unfold o1, o2. destruct V3 as [-> | ->]; destruct g1, g2; simpl; try reflexivity; destruct T; discriminate.
  Qed.

  Lemma fold_cell : forall acts st st' U v n, fair d -> fixed st0 st -> simulates n (p_base st) -> p_after st0 = Some af -> at_ (p_related st0) j r -> at_ (s_apps (p_base st0)) j ap ->
    at2 (p_probs st0) h j p -> at2 U h j b -> p_seen st = Some U -> fold_result (prob_turn d) acts st = Ok st' -> sees (p_base st) h j v ->
    exists ops w, evolve v ops w /\ sees (p_base st') h j w /\
      (In true ops <-> exists item, In item acts /\ go_at item) /\ (In false ops <-> exists item, In item acts /\ off_at item) /\
      ((forall item, In item acts -> off_at item -> go_at item) -> ops <> [] -> last ops false = true).
  Proof.
    induction acts as [|item acts IH]; intros st st' U v n Fd Fx Sim Ea Er Eap Hp Hb Es H Hv; cbn [fold_result] in H.
    - injection H as <-. exists [], v. split; [reflexivity|]. split; [exact Hv|]. simpl. split; [split; [contradiction|intros (x & [] & _)]|].
      split; [split; [contradiction|intros (x & [] & _)]|]. intros _ N. contradiction.
    - destruct (prob_turn d st item) as [st1|] eqn:E; [|discriminate]. cbn [bind] in H.
      destruct (turn_cell st item st1 U v n Fd Fx Sim Ea Er Eap Hp Hb Es E Hv) as (Fx1 & Es1 & ops1 & v1 & A1 & A2 & A3 & A4 & A5).
      assert (Sim1 : exists m, simulates m (p_base st0) -> simulates m (p_base st1)) by (exists n; apply Fx1).
      destruct (IH st1 st' U v1 n Fd Fx1) as (ops2 & w & B1 & B2 & B3 & B4 & B5); auto.
      { clear -Sim E Fd Ea Fx. unfold prob_turn in E. destruct item as [act now]. destruct (existsb _ _); cbn [negb] in E; [|injection E as <-; exact Sim].
        destruct (dget _ _ _) as [before|]; [|discriminate]. destruct (_ && _); [|discriminate]. cbn [negb] in E.
        destruct (prob_switch_off _ _) as [s1|] eqn:E1; [|discriminate]. cbn [bind] in E. destruct (after_step _ _ _ _) as [st2|] eqn:E2; [|discriminate]. cbn [bind] in E.
        destruct (prob_off_ok _ _ _ E1) as (_ & O2 & _).
        assert (Ea1 : p_after (with_base st s1) = Some af) by (destruct Fx as (_ & _ & _ & F4 & _); simpl; congruence).
        destruct (after_ok _ _ _ _ _ _ Fd Ea1 E2) as ((_ & X & _) & _). destruct (activity_ok _ _ _ _ _ Fd E) as ((_ & Y & _) & _). apply Y, X. simpl. apply O2. exact Sim. }
      exists (ops1 ++ ops2)%list, w. split; [eapply evolve_app; eauto|]. split; [exact B2|]. split; [|split].
      + rewrite in_app_iff, A3, B3. split; [intros [X|(x & I & X)]; [exists item; split; [left; reflexivity|exact X]|exists x; split; [right; exact I|exact X]]|].
        intros (x & [<-|I] & X); eauto.
      + rewrite in_app_iff, A4, B4. split; [intros [X|(x & I & X)]; [exists item; split; [left; reflexivity|exact X]|exists x; split; [right; exact I|exact X]]|].
        intros (x & [<-|I] & X); eauto.
      + intros All N. destruct ops2 as [|x ops2].
        * rewrite app_nil_r in *. apply A5. assert (Y : In true ops1 \/ In false ops1) by (destruct ops1 as [|[|] t]; simpl; [contradiction|auto|auto]).
          destruct Y as [Y|Y]; [apply A3; exact Y|]. apply All; [left; reflexivity|]. apply A4. exact Y.
        * assert (X : last (x :: ops2) false = true). { apply B5; [|discriminate]. intros i I. apply All. right. exact I. }
          clear -X. induction ops1 as [|y ops1 IH]; [exact X|]. change ((y :: ops1) ++ x :: ops2)%list with (y :: (ops1 ++ x :: ops2)%list).
          destruct (ops1 ++ x :: ops2)%list eqn:E; [destruct ops1; discriminate|exact IH].
  Qed.
End Cell.

Lemma turn_fixed : forall d st item st' af, fair d -> p_after st = Some af -> prob_turn d st item = Ok st' -> fixed st st' /\ p_after st' = Some af.
Proof.
  intros d st [act now] st' af Fd Ea E. assert (X : fixed st st'); [|split; [exact X|destruct X as (_ & _ & _ & -> & _); exact Ea]].
  unfold prob_turn in E. destruct (existsb _ _); cbn [negb] in E; [|injection E as <-; apply fixed_refl].
  destruct (dget _ _ _) as [before|]; [|discriminate]. destruct (_ && _); [|discriminate]. cbn [negb] in E.
  destruct (prob_switch_off _ _) as [s1|] eqn:E1; [|discriminate]. cbn [bind] in E. destruct (after_step _ _ _ _) as [st2|] eqn:E2; [|discriminate]. cbn [bind] in E.
  destruct (prob_off_ok _ _ _ E1) as (O1 & O2 & _).
  assert (Fb : fixed st (with_base st s1)) by (split; [exact O1|]; simpl; auto 10).
  destruct (after_ok _ _ _ _ _ _ Fd (Ea : p_after (with_base st s1) = Some af) E2) as (X & _). destruct (activity_ok _ _ _ _ _ Fd E) as (Y & _).
  eapply fixed_trans; [exact Fb|]. eapply fixed_trans; eauto.
Qed.

Lemma fold_fixed : forall d acts st st' af, fair d -> p_after st = Some af -> fold_result (prob_turn d) acts st = Ok st' -> fixed st st'.
Proof.
  intros d. induction acts as [|item acts IH]; intros st st' af Fd Ea H; cbn [fold_result] in H; [injection H as <-; apply fixed_refl|].
  destruct (prob_turn d st item) as [st1|] eqn:E; [|discriminate]. cbn [bind] in H. destruct (turn_fixed _ _ _ _ _ Fd Ea E) as [X Y].
  eapply fixed_trans; [exact X|]. eapply IH; eauto.
Qed.
