(** * Proofs about appliances started at random: runs and readings. *)

From Coq Require Import String List ZArith QArith Bool Arith Lia Lqa.
From Verif Require Import Prelude PreludeFacts SpecBase SpecBaseFacts Parse_Model Appliance_Model Appliance_Spec AppSetup_Model AppSetup_Spec ActApp_Model ActApp_Spec ProbApp_Model ProbApp_Spec.
From Verif Require Import Parse_GroupProofs Activity_LabelProofs Matrix_Proofs Appliance_Proofs Appliance_RunProofs Appliance_TypeProofs AppSetup_Proofs AppSetup_InitProofs ActApp_Proofs ActApp_RunProofs ProbApp_Proofs ProbApp_StepProofs ProbApp_RunProofs ProbApp_ProbProofs.
Import ListNotations.
Local Open Scope nat_scope.

(** ** Outcome of a step *)

Lemma running_outcome : forall n st af fo f d acts st' h j v, wellformed n st af fo -> one_follower fo f -> fair d -> counts_of n acts -> current st ->
  prob_step st d acts = Ok st' -> sees (p_base st) h j v -> v_own v = true -> (1 < v_left v)%Q ->
  exists w, sees (p_base st') h j w /\ (forced_to_stop st acts h j -> halted v w) /\ (~ forced_to_stop st acts h j -> goes_on v w).
Proof.
  intros n st af fo f d acts st' h j v W O Fd Ca Cu H Hv Ow L. eapply outcome_used; eauto.
  apply (counted_iff st h j v true Hv Cu). rewrite Ow. cbn [andb]. symmetry. apply Qltb_lt. destruct (p_seen st); lra.
Qed.

Lemma idle_counted : forall st h j v, sees (p_base st) h j v -> current st ->
  (v_own v = false \/ (v_left v <= 0)%Q \/ (p_seen st = None /\ (v_left v <= 1)%Q)) -> counted st h j false.
Proof.
  intros st h j v Hv Cu C. apply (counted_iff st h j v false Hv Cu). destruct C as [->|[L|[E L]]]; [reflexivity| |].
  - symmetry. apply andb_false_iff. right. destruct (Qltb _ (v_left v)) eqn:X; [|reflexivity]. apply Qltb_lt in X. destruct (p_seen st); lra.
  - symmetry. apply andb_false_iff. right. rewrite E. destruct (Qltb 1 (v_left v)) eqn:X; [|reflexivity]. apply Qltb_lt in X. lra.
Qed.

Lemma idle_outcome : forall n st af fo f d acts st' h j v, wellformed n st af fo -> one_follower fo f -> fair d -> counts_of n acts -> current st ->
  prob_step st d acts = Ok st' -> sees (p_base st) h j v -> (v_own v = false \/ (v_left v <= 0)%Q \/ (p_seen st = None /\ (v_left v <= 1)%Q)) ->
  exists w, sees (p_base st') h j w /\
    (starts_by_activity st d acts h j -> fresh_cycle v w) /\
    (starts_after_activity st d acts h j -> ~ forced_to_stop st acts h j -> fresh_cycle v w) /\
    (starts_after_activity st d acts h j -> (exists a, at_ af j a /\ at_ (p_related st) j a) -> fresh_cycle v w) /\
    (starts_after_activity st d acts h j -> fresh_cycle v w \/ halted v w) /\
    (~ starts_by_activity st d acts h j -> ~ starts_after_activity st d acts h j ->
       (forced_to_stop st acts h j -> halted v w) /\
       (~ forced_to_stop st acts h j -> (starts_after_appliance st d h j -> fresh_cycle v w) /\ (~ starts_after_appliance st d h j -> goes_on v w))).
Proof. intros n st af fo f d acts st' h j v W O Fd Ca Cu H Hv C. eapply outcome_free; eauto. eapply idle_counted; eauto. Qed.

(** Nothing else makes the time left longer. *)
Lemma only_triggers : forall n st af fo f d acts st' h j v w, wellformed n st af fo -> one_follower fo f -> fair d -> counts_of n acts ->
  (forall U, p_seen st = Some U -> shaped n (length (s_apps (p_base st))) U) ->
  prob_step st d acts = Ok st' -> sees (p_base st) h j v -> sees (p_base st') h j w -> (0 < v_left w)%Q -> (v_left v < v_left w)%Q ->
  counted st h j false /\ (starts_by_activity st d acts h j \/ starts_after_activity st d acts h j \/ starts_after_appliance st d h j).
Proof.
  intros n st af fo f d acts st' h j v w W O Fd Ca Us H Hv Hw P L.
  assert (X : exists b, counted st h j b).
  { unfold counted. assert (Lhj : h < n /\ j < length (s_apps (p_base st))) by (destruct W as (W1 & _); destruct W1 as (S1 & _); destruct Hv as (_ & V2 & _); exact (at2_shaped _ _ _ _ _ _ _ S1 V2)).
    destruct (p_seen st) as [U|] eqn:E.
    - apply (shaped_at2 _ n (length (s_apps (p_base st)))); [apply Us; reflexivity|apply Lhj|apply Lhj].
    - eexists. eapply usage_at; [apply (base_step_sees _ _ _ _ Hv)|reflexivity]. }
  destruct X as [b Hb]. destruct (step_cell n st af fo f d acts st' W O Fd Ca H h j v b Hv Hb) as (ops & o1 & o2 & w' & E & S & -> & A1 & A2 & A3 & A4 & A5).
  rewrite (sees_fun _ _ _ _ _ S Hw) in E.
  assert (T : In true o1 \/ In true o2).
  { destruct (in_dec Bool.bool_dec true (List.app o1 o2)) as [I|N]; [apply in_app_iff in I; exact I|]. exfalso.
    destruct (List.app o1 o2) as [|x ops] eqn:Eo.
    - simpl in E. subst w. simpl in L. pose proof (tick_le (v_left v)). lra.
    - destruct (evolve_last _ _ _ E) as [_ Z]; [discriminate|]. rewrite Z in P by (apply last_false; exact N). simpl in P. lra. }
  destruct T as [T|T]; [apply A1 in T|apply A3 in T]; destruct T as [-> T]; (split; [exact Hb|]); tauto.
Qed.

(** ** Readings between steps *)

Lemma nth_error_ext_eq : forall A (l l' : list A), (forall i, nth_error l i = nth_error l' i) -> l = l'.
Proof.
  induction l as [|x l IH]; intros [|y l'] H; [reflexivity|specialize (H 0); discriminate|specialize (H 0); discriminate|].
  pose proof (H 0) as E. injection E as ->. f_equal. apply IH. intro i. exact (H (S i)).
Qed.

Lemma usage_same : forall n s, simulates n s -> (forall h j v, sees s h j v -> v_own v = true -> (v_left v <= 0 \/ 1 < v_left v)%Q) ->
  get_current_usage (update_iteration_variables s) = get_current_usage s.
Proof.
  intros n s S N. pose proof (shaped_usage n s S) as S1. pose proof (shaped_usage n (update_iteration_variables s) (base_step_simulates n s S)) as S2.
  apply nth_error_ext_eq. intro h. destruct (Nat.lt_ge_cases h n) as [Lh|Lh].
  2:{ rewrite (proj2 (nth_error_None _ _)) by (destruct S2 as [-> _]; exact Lh). rewrite (proj2 (nth_error_None _ _)) by (destruct S1 as [-> _]; exact Lh). reflexivity. }
  destruct (lt_at _ (get_current_usage (update_iteration_variables s)) h) as [r2 E2]; [destruct S2 as [-> _]; exact Lh|].
  destruct (lt_at _ (get_current_usage s) h) as [r1 E1]; [destruct S1 as [-> _]; exact Lh|]. rewrite E2, E1. f_equal.
  apply nth_error_ext_eq. intro j. destruct (Nat.lt_ge_cases j (length (s_apps s))) as [Lj|Lj].
  2:{ rewrite (proj2 (nth_error_None _ _)) by (rewrite (proj2 S2 _ _ E2); exact Lj). rewrite (proj2 (nth_error_None _ _)) by (rewrite (proj2 S1 _ _ E1); exact Lj). reflexivity. }
  destruct (simulates_sees n s h j S Lh Lj) as [v Hv].
  assert (U1 : at2 (get_current_usage s) h j (Qltb 0 (v_left v) && v_own v)) by (apply (usage_at _ _ _ _ _ Hv); reflexivity).
  assert (U2 : at2 (get_current_usage (update_iteration_variables s)) h j (Qltb 0 (tick_left (v_left v)) && v_own v)) by (apply (usage_at _ _ _ _ _ (base_step_sees _ _ _ _ Hv)); reflexivity).
  assert (E : Qltb 0 (tick_left (v_left v)) && v_own v = Qltb 0 (v_left v) && v_own v).
  { destruct (v_own v) eqn:Ow; [|rewrite !andb_false_r; reflexivity]. rewrite !andb_true_r. unfold tick_left. destruct (Qltb 0 (v_left v)) eqn:A; [|exact A].
    apply Qltb_lt in A. apply Qltb_lt. destruct (N h j v Hv Ow); lra. }
  rewrite E in U2. destruct U1 as (x1 & X1 & Y1). destruct U2 as (x2 & X2 & Y2). unfold at_ in *. congruence.
Qed.

Lemma look_same : forall n st af fo d acts, wellformed n st af fo -> p_seen st = None -> none_ending st -> prob_step (look st) d acts = prob_step st d acts.
Proof.
  intros n st af fo d acts W E N. pose proof W as (W1 & _ & _ & _ & W5 & _). unfold prob_step. simpl p_base.
  assert (X : usage_read (with_base (look st) (update_iteration_variables (p_base st))) = usage_read (with_base st (update_iteration_variables (p_base st)))).
  { unfold usage_read. simpl. unfold usage_read. rewrite E. symmetry. apply (usage_same n); [exact W1|exact N]. }
  unfold follow_step. simpl p_follows. rewrite W5. simpl p_base. destruct (follow_candidates _ _ _) as [cands|]; [|reflexivity]. cbn [bind].
  assert (Y : look (with_base (look st) (update_iteration_variables (p_base st))) = look (with_base st (update_iteration_variables (p_base st)))).
  { unfold look at 1 3. rewrite X. reflexivity. }
  rewrite Y. reflexivity.
Qed.

(** ** Runs *)

Definition steady_state (n : nat) (st : probsim) (af fo : list string) : Prop :=
  wellformed n st af fo /\ flows (p_base st) /\ (forall U, p_seen st = Some U -> shaped n (length (s_apps (p_base st))) U) /\ counts_of n (p_prev st).

Lemma look_steady : forall n st af fo, steady_state n st af fo -> steady_state n (look st) af fo.
Proof.
  intros n st af fo (A & B & C & D). split; [exact A|]. split; [exact B|]. split; [|exact D]. simpl. intros U E. injection E as <-.
  unfold usage_read. destruct (p_seen st) as [U|]; [apply C; reflexivity|]. apply shaped_usage. apply A.
Qed.

Lemma step_steady : forall n st af fo f d acts st', steady_state n st af fo -> one_follower fo f -> fair d -> counts_of n acts -> prob_step st d acts = Ok st' ->
  steady_state n st' af fo /\ p_prev st' = acts /\ p_seen st' = None /\ p_related st' = p_related st /\ p_probs st' = p_probs st /\ same_data (p_base st) (p_base st').
Proof.
  intros n st af fo f d acts st' (A & B & C & D) O Fd Ca H. destruct (step_fixed n st af fo d acts st' A Fd H) as (W & P & S & Da & R & Pr).
  split; [|auto 10]. split; [exact W|]. split; [intros j a Ea; destruct Da as (Da & _); rewrite Da in Ea; exact (B j a Ea)|]. rewrite S, P. split; [discriminate|exact Ca].
Qed.

Lemma run_steady : forall n af fo f l st st', steady_state n st af fo -> one_follower fo f -> fair_run n l -> prob_run st l = Ok st' ->
  steady_state n st' af fo /\ p_related st' = p_related st /\ p_probs st' = p_probs st /\ p_prev st' = last (inputs l) (p_prev st) /\ same_data (p_base st) (p_base st') /\
  (current st \/ inputs l <> [] -> current st').
Proof.
  intros n af fo f. induction l as [|x l IH]; intros st st' S O F H; cbn [prob_run] in H.
  - injection H as <-. split; [exact S|]. split; [reflexivity|]. split; [reflexivity|]. split; [reflexivity|]. split; [apply same_data_refl|]. intros [C|C]; [exact C|exfalso; apply C; reflexivity].
  - destruct (prob_do st x) as [st1|] eqn:E; [|discriminate]. cbn [bind] in H.
    assert (F' : fair_run n l) by (intros d acts I; apply F; right; exact I).
    destruct x as [|d acts]; cbn [prob_do] in E.
    + injection E as <-. destruct (IH _ _ (look_steady _ _ _ _ S) O F' H) as (A1 & A2 & A3 & A4 & A5 & A6). split; [exact A1|]. split; [exact A2|]. split; [exact A3|]. split; [exact A4|]. split; [exact A5|].
      intros [C|C]; apply A6; [left|right; exact C]. right. simpl. unfold usage_read. destruct C as [E|E]; rewrite E; reflexivity.
    + destruct (F d acts (or_introl eq_refl)) as [Fd Ca]. destruct (step_steady n st af fo f d acts st1 S O Fd Ca E) as (S1 & P1 & Q1 & R1 & B1 & D1).
      destruct (IH _ _ S1 O F' H) as (A1 & A2 & A3 & A4 & A5 & A6). split; [exact A1|]. split; [congruence|]. split; [congruence|]. split.
      * rewrite A4, P1. unfold inputs. cbn [map concat List.app]. destruct (concat _) as [|y t] eqn:El; [reflexivity|]. change (last (acts :: y :: t) (p_prev st)) with (last (y :: t) (p_prev st)).
        clear. revert y. induction t as [|z t IH]; intro y; [reflexivity|]. cbn [last] in *. apply IH.
      * split; [eapply same_data_trans; eauto|]. intros _. apply A6. left. left. exact Q1.
Qed.

Lemma run_defined : forall n af fo f l st, steady_state n st af fo -> one_follower fo f -> fair_run n l -> steady (p_related st) (p_prev st :: inputs l) ->
  exists st', prob_run st l = Ok st'.
Proof.
  intros n af fo f. induction l as [|x l IH]; intros st S O F Hs; [cbn; eauto|]. cbn [prob_run].
  assert (F' : fair_run n l) by (intros d acts I; apply F; right; exact I). destruct x as [|d acts]; cbn [prob_do bind].
  - apply IH; [apply look_steady; exact S|exact O|exact F'|]. exact Hs.
  - destruct (F d acts (or_introl eq_refl)) as [Fd Ca]. pose proof S as (A & B & C & D).
    destruct (step_defined n st af fo f d acts A B C O Fd Ca D) as [st1 E].
    { intros act j M Ej. apply (Hs acts (p_prev st) act j); [right; left; reflexivity|left; reflexivity|exact Ej|exact M]. }
    rewrite E. cbn [bind]. destruct (step_steady n st af fo f d acts st1 S O Fd Ca E) as (S1 & P1 & Q1 & R1 & B1 & D1).
    apply IH; [exact S1|exact O|exact F'|]. rewrite R1, P1. intros a a' r j I I'. apply Hs; right; assumption.
Qed.

Lemma constructed_steady : forall n step apps related af fo hh_types groups own algo sw fu p1 p2 start wait acts st,
  constructed n step apps related af fo hh_types groups own algo sw fu p1 p2 start wait acts st -> flowing apps -> steady_state n st af fo.
Proof.
  intros n step apps related af fo hh_types groups own algo sw fu p1 p2 start wait acts st C Fl. pose proof C as (T & So & Lh & Ca & _).
  destruct (constructed_ok _ _ _ _ _ _ _ _ _ _ _ _ _ _ _ _ _ _ C) as (W & R & P & S & Ow & Pr & La & Ap & _).
  split; [exact W|]. split; [|split].
  - intros j a Ea Wa. assert (Lj : j < length apps) by (rewrite <- La; exact (at_lt _ _ _ _ Ea)). destruct (lt_at _ _ _ Lj) as [a0 Ea0]. rewrite (Ap j a a0 Ea0 Ea) in *. exact (Fl j a0 Ea0 Wa).
  - rewrite S. intros U E. injection E as <-. rewrite La. apply shaped_map. exact So.
  - rewrite P. exact Ca.
Qed.

(** ** Whole day *)

Definition untouched (st : probsim) (acts : list (string * list Z)) (j : nat) (r : string) : Prop :=
  at_ (p_related st) j r /\ ~ mentions acts r /\ ~ mentions acts "nan"%string.

Lemma performs_mentions : forall acts act h c, performs acts act h c -> mentions acts act.
Proof. intros acts act h c (l & E & _). eapply dget_mentions. exact E. Qed.

Lemma untouched_step : forall n st af fo f d acts st' h j v r, steady_state n st af fo -> one_follower fo f -> fair d -> counts_of n acts -> prob_step st d acts = Ok st' ->
  sees (p_base st) h j v -> at_ (p_related st) j r -> ~ mentions acts r -> ~ mentions acts "nan"%string -> at_ af j "nan"%string -> at_ fo j "nan"%string ->
  exists w, sees (p_base st') h j w /\ goes_on v w.
Proof.
  intros n st af fo f d acts st' h j v r (W & _ & Us & _) O Fd Ca H Hv Er N1 N2 Ea Ef.
  assert (Fo : ~ forced_to_stop st acts h j). { intros (r' & a & X & _ & _ & [Y _]). apply N1. rewrite (at_fun _ _ _ _ _ Er X). eapply performs_mentions. exact Y. }
  assert (B : ~ starts_by_activity st d acts h j). { intros (r' & c & p & X & _ & Y & _). apply N1. rewrite (at_fun _ _ _ _ _ Er X). eapply performs_mentions. exact Y. }
  pose proof W as (W1 & _ & W3 & _ & W5 & _).
  assert (A : ~ starts_after_activity st d acts h j).
  { intros (a & p & i & (af' & X & X') & _ & [Y _] & _). apply N2. replace "nan"%string with a; [eapply performs_mentions; exact Y|]. assert (af' = af) by congruence. subst af'. exact (at_fun _ _ _ _ _ X' Ea). }
  assert (C : ~ starts_after_appliance st d h j).
  { intros (t & i & w & p & (fo' & X & X') & Nn & _). apply Nn. assert (fo' = fo) by congruence. subst fo'. exact (at_fun _ _ _ _ _ X' Ef). }
  assert (X : exists b, counted st h j b).
  { unfold counted. assert (Lhj : h < n /\ j < length (s_apps (p_base st))) by (destruct W1 as (S1 & _); destruct Hv as (_ & V2 & _); exact (at2_shaped _ _ _ _ _ _ _ S1 V2)).
    destruct (p_seen st) as [U|] eqn:E.
    - apply (shaped_at2 _ n (length (s_apps (p_base st)))); [apply Us; reflexivity|apply Lhj|apply Lhj].
    - eexists. eapply usage_at; [apply (base_step_sees _ _ _ _ Hv)|reflexivity]. }
  destruct X as [[|] Hb].
  - destruct (outcome_used n st af fo f d acts st' h j v W O Fd Ca H Hv Hb) as (w & S & _ & G). exists w. auto.
  - destruct (outcome_free n st af fo f d acts st' h j v W O Fd Ca H Hv Hb) as (w & S & _ & _ & _ & _ & G). destruct (G B A) as [_ G']. destruct (G' Fo) as [_ G'']. exists w. auto.
Qed.

Lemma untouched_run : forall n af fo f l st st' h j v r, steady_state n st af fo -> one_follower fo f -> fair_run n l -> prob_run st l = Ok st' ->
  sees (p_base st) h j v -> at_ (p_related st) j r -> (forall acts, In acts (inputs l) -> ~ mentions acts r /\ ~ mentions acts "nan"%string) -> at_ af j "nan"%string -> at_ fo j "nan"%string ->
  exists w, sees (p_base st') h j w /\ same_static v w /\
    ((v_left v <= qn (length (inputs l)))%Q -> (v_left w <= 0)%Q) /\ ((qn (length (inputs l)) < v_left v)%Q -> (v_left w == v_left v - qn (length (inputs l)))%Q).
Proof.
  intros n af fo f. induction l as [|x l IH]; intros st st' h j v r S O F H Hv Er N Ea Ef; cbn [prob_run] in H.
  - injection H as <-. exists v. split; [exact Hv|]. split; [repeat split|]. change (qn (length (inputs []))) with 0%Q. split; intro; lra.
  - destruct (prob_do st x) as [st1|] eqn:E; [|discriminate]. cbn [bind] in H.
    assert (F' : fair_run n l) by (intros d acts I; apply F; right; exact I). destruct x as [|d acts]; cbn [prob_do] in E.
    + injection E as <-. exact (IH _ _ h j v r (look_steady _ _ _ _ S) O F' H Hv Er N Ea Ef).
    + destruct (F d acts (or_introl eq_refl)) as [Fd Ca]. destruct (step_steady n st af fo f d acts st1 S O Fd Ca E) as (S1 & P1 & Q1 & R1 & B1 & D1).
      destruct (N acts (or_introl eq_refl)) as [N1 N2].
      destruct (untouched_step n st af fo f d acts st1 h j v r S O Fd Ca E Hv Er N1 N2 Ea Ef) as (v1 & Hv1 & T1 & (G1 & G2) & _).
      rewrite <- R1 in Er. destruct (IH _ _ h j v1 r S1 O F' H Hv1 Er) as (w & Hw & T2 & C1 & C2); auto.
      { intros a I. apply N. right. exact I. }
      exists w. split; [exact Hw|]. split.
      { clear - T1 T2. unfold same_static in *. intuition congruence. }
      change (inputs (Step d acts :: l)) with (acts :: inputs l). cbn [length]. rewrite !qn_S. destruct (Qlt_le_dec 0 (v_left v)) as [P|P].
      * specialize (G1 P). split; intro L; [apply C1; lra|rewrite C2 by lra; lra].
      * specialize (G2 P). pose proof (qn_nonneg (length (inputs l))). split; intro L; [apply C1; lra|lra].
Qed.

(** ** Other numbers of followers *)

Lemma followers_in : forall fo j s, at_ fo j s -> s <> "nan"%string -> In j (followers fo).
Proof.
  intros fo j s E N. unfold followers. apply where_true_in'. rewrite nth_error_map. unfold at_ in E. rewrite E. simpl. f_equal. apply negb_true_iff.
  destruct (is_nan s) eqn:X; [|reflexivity]. apply is_nan_spec in X. contradiction.
Qed.

Lemma followers_named : forall fo j, In j (followers fo) -> exists s, at_ fo j s /\ s <> "nan"%string.
Proof.
  intros fo j I. unfold followers in I. apply where_true_in' in I. rewrite nth_error_map in I. destruct (nth_error fo j) as [s|] eqn:E; [|discriminate]. simpl in I. injection I as I.
  exists s. split; [exact E|]. intros ->. vm_compute in I. discriminate.
Qed.

Lemma wanted_total : forall fo, exists w, mapM (vget fo) (followers fo) = Ok w /\ length w = length (followers fo).
Proof.
  intro fo. destruct (mapM_total _ _ (vget fo) (followers fo)) as [w E].
  - intros j I. destruct (followers_named fo j I) as (s & Es & _). exists s. apply vget_ok. exact Es.
  - exists w. split; [exact E|]. exact (proj1 (mapM_at _ _ _ _ _ E)).
Qed.

Lemma two_followers : forall n st af fo d acts j1 j2 s1 s2, wellformed n st af fo -> j1 <> j2 -> at_ fo j1 s1 -> at_ fo j2 s2 -> s1 <> "nan"%string -> s2 <> "nan"%string ->
  (forall h j v, sees (p_base st) h j v -> (v_left v <= 0 \/ 1 < v_left v)%Q) -> prob_step st d acts = Err ValueError.
Proof.
  intros n st af fo d acts j1 j2 s1 s2 W N E1 E2 N1 N2 Q. pose proof W as (W1 & _ & _ & _ & W5 & _). unfold prob_step, follow_step. simpl p_follows. rewrite W5.
  assert (Em : where2 (ended_mask (p_base st)) = []).
  { destruct (where2 (ended_mask (p_base st))) as [|[h i] t] eqn:E; [reflexivity|]. exfalso. assert (I : In (h, i) (where2 (ended_mask (p_base st)))) by (rewrite E; left; reflexivity).
    apply ended_in in I. destruct I as (l & I & L). pose proof W1 as (S1 & S2 & _). destruct (at2_shaped _ _ _ _ _ _ _ S2 I) as [Lh Li].
    destruct (simulates_sees n _ h i W1 Lh Li) as [v Hv]. specialize (Q h i v Hv). destruct Hv as (_ & _ & X & _). rewrite (at2_fun _ _ _ _ _ _ X I) in Q. lra. }
  rewrite Em. unfold follow_candidates. destruct (wanted_total fo) as (w & -> & Lw). cbn [bind mapM].
  pose proof (followers_in fo j1 s1 E1 N1) as I1. pose proof (followers_in fo j2 s2 E2 N2) as I2.
  assert (L2 : 2 <= length (followers fo)).
  { destruct (followers fo) as [|x [|y t]]; [contradiction| |simpl; lia]. destruct I1 as [I1|[]], I2 as [I2|[]]; subst. contradiction. }
  unfold same_strings. destruct w as [|x [|y w]]; simpl in Lw; [lia|lia|]. reflexivity.
Qed.

Lemma no_follower : forall n st af fo d acts h j v, wellformed n st af fo -> (forall i s, at_ fo i s -> s = "nan"%string) ->
  sees (p_base st) h j v -> (0 < v_left v <= 1)%Q -> exists e, prob_step st d acts = Err e.
Proof.
  intros n st af fo d acts h j v W N Hv L. pose proof W as (W1 & _ & _ & _ & W5 & _). unfold prob_step, follow_step. simpl p_follows. rewrite W5.
  assert (I : In (h, j) (where2 (ended_mask (p_base st)))) by (apply ended_in; exists (v_left v); split; [apply Hv|exact L]).
  assert (Fe : followers fo = []).
  { destruct (followers fo) as [|x t] eqn:E; [reflexivity|]. exfalso. destruct (followers_named fo x) as (s & Es & Ns); [rewrite E; left; reflexivity|]. apply Ns. eapply N. exact Es. }
  unfold follow_candidates. rewrite Fe. cbn [mapM bind].
  destruct (mapM _ (where2 (ended_mask (p_base st)))) as [ended|e] eqn:Ee; [|cbn [bind]; eauto]. cbn [bind].
  pose proof (proj1 (mapM_at _ _ _ _ _ Ee)) as Le. destruct (where2 (ended_mask (p_base st))) as [|k t]; [contradiction|].
  destruct ended as [|y [|z ended]]; simpl in Le; try lia.
  - unfold same_strings. cbn [length Nat.eqb map bind]. unfold times_ones. cbn. eauto.
  - unfold same_strings. cbn. eauto.
Qed.

Lemma left_out_step : forall n st af fo f d acts act j, steady_state n st af fo -> one_follower fo f -> fair d -> counts_of n acts ->
  mentions acts act -> at_ (p_related st) j act -> ~ mentions (p_prev st) act -> (forall act' i, mentions acts act' -> at_ (p_related st) i act' -> act' <> act -> mentions (p_prev st) act') ->
  prob_step st d acts = Err KeyError.
Proof.
  intros n st af fo f d acts act j S O Fd Ca M Ej N Others. pose proof S as (W & B & Us & D).
  (* the step without activities is defined: only the loop fails *)
  destruct (step_defined n st af fo f d [] W B Us O Fd) as [st1 E1].
  { split; [constructor|intros a l []]. } { exact D. } { intros a i []. }
  unfold prob_step in *. destruct (follow_step _ _ _) as [sa|] eqn:Ef; [|discriminate]. cbn [bind fold_result] in *.
  assert (Fa : fixed (with_base st (update_iteration_variables (p_base st))) sa /\ p_seen sa = Some (usage_read (with_base st (update_iteration_variables (p_base st))))).
  { unfold follow_step in Ef. simpl p_follows in Ef. destruct W as (_ & _ & _ & _ & W5 & _). rewrite W5 in Ef. destruct (follow_candidates _ _ _); [|discriminate]. cbn [bind] in Ef.
    destruct (sampled _ _ _); [|discriminate]. cbn [bind] in Ef. destruct (switch_on _ _ _) as [s|] eqn:Eo; [|discriminate]. cbn [bind] in Ef. injection Ef as <-.
    destruct (on_ok _ _ _ _ Eo) as (Dd & Ss & _). split; [|reflexivity]. split; [exact Dd|]. simpl. auto 10. }
  destruct Fa as [Fa Sa]. pose proof W as (W1 & W2 & W3 & W4 & W5 & W6 & W7).
  assert (Fit : fit n sa af).
  { eapply fit_same; [|exact Fa|exact Sa]. unfold fit. simpl. split; [apply base_step_simulates; exact W1|]. split; [exact W2|]. split; [exact W3|]. split; [exact W4|]. split; [exact W7|]. split; [|exact B].
    unfold usage_read. simpl. destruct (p_seen st) as [U|] eqn:E; [apply Us; reflexivity|]. apply (shaped_usage n _ (base_step_simulates n _ W1)). }
  assert (R : p_related sa = p_related st) by (destruct Fa as (_ & _ & R & _); exact R). assert (P : p_prev sa = p_prev st) by (destruct Fa as (_ & _ & _ & _ & _ & _ & P); exact P).
  assert (G : forall l s, (forall a x, In (a, x) l -> length x = n) -> fit n s af -> (exists U, p_seen s = Some U) -> p_related s = p_related st -> p_prev s = p_prev st -> In act (map fst l) ->
     (forall act' i, In act' (map fst l) -> at_ (p_related st) i act' -> act' <> act -> mentions (p_prev st) act') -> fold_result (prob_turn d) l s = Err KeyError).
  { induction l as [|[a x] l IH]; intros s Hl Fs Es Rs Ps I Oth; [contradiction|]. cbn [fold_result]. destruct (string_dec a act) as [->|Na].
    - unfold prob_turn at 1. rewrite Rs, Ps. destruct (existsb (fun b => b) (map (String.eqb act) (p_related st))) eqn:Ex; cbn [negb].
      2:{ exfalso. assert (X : existsb (fun b => b) (map (String.eqb act) (p_related st)) = true) by (apply some_mask; eauto). congruence. }
      destruct (dget String.eqb (p_prev st) act) as [before|] eqn:Eb; [exfalso; apply N; eapply dget_mentions; exact Eb|]. reflexivity.
    - destruct (turn_total n d s a x af Fd Fs) as (s1 & E & F1 & U1 & X).
      { apply (Hl a). left. reflexivity. } { exact Es. }
      { intros i Ei. rewrite Ps. rewrite Rs in Ei. apply (mentions_dget n); [exact D|]. apply (Oth a i); [left; reflexivity|exact Ei|exact Na]. }
      rewrite E. cbn [bind]. destruct X as (_ & _ & X1 & _ & _ & _ & X2). apply IH; auto; try congruence.
      + intros a' x' I'. apply (Hl a' x'). right. exact I'.
      + destruct I as [I|I]; [simpl in I; contradiction|exact I].
      + intros a' i I'. apply Oth. right. exact I'. }
  rewrite G; [reflexivity| |exact Fit|eauto|exact R|exact P|exact M|exact Others].
  intros a x I. apply (proj2 Ca a x I).
Qed.

(** ** Statements of the properties *)

Lemma reached_state : forall n step apps related af fo f hh_types groups own algo sw fu p1 p2 start wait acts0 st0 l st,
  constructed n step apps related af fo hh_types groups own algo sw fu p1 p2 start wait acts0 st0 -> flowing apps -> one_follower fo f ->
  fair_run n l -> prob_run st0 l = Ok st ->
  wellformed n st af fo /\ p_related st = related /\ s_own (p_base st) = own /\ p_probs st = p_probs st0 /\ p_prev st = last (inputs l) acts0 /\ (inputs l <> [] -> current st).
Proof.
  intros n step apps related af fo f hh_types groups own algo sw fu p1 p2 start wait acts0 st0 l st C Fl O F H.
  pose proof (constructed_steady _ _ _ _ _ _ _ _ _ _ _ _ _ _ _ _ _ _ C Fl) as S.
  destruct (constructed_ok _ _ _ _ _ _ _ _ _ _ _ _ _ _ _ _ _ _ C) as (W & R & P & _ & Ow & _).
  destruct (run_steady n af fo f l st0 st S O F H) as ((W' & _) & R' & B' & P' & D' & C').
  split; [exact W'|]. split; [congruence|]. split. { destruct D' as (_ & D' & _). congruence. } split; [exact B'|]. split; [rewrite P', P; reflexivity|]. intro X. apply C'. right. exact X.
Qed.

Lemma only_reasons : forall n st af fo f d acts st' h j v w, wellformed n st af fo -> one_follower fo f -> fair d -> counts_of n acts ->
  (forall U, p_seen st = Some U -> shaped n (length (s_apps (p_base st))) U) ->
  prob_step st d acts = Ok st' -> sees (p_base st) h j v -> sees (p_base st') h j w -> (0 < v_left w)%Q -> (v_left v < v_left w)%Q ->
  starts_by_activity st d acts h j \/ starts_after_activity st d acts h j \/ starts_after_appliance st d h j.
Proof. intros n st af fo f d acts st' h j v w W O Fd Ca Us H Hv Hw P L. exact (proj2 (only_triggers n st af fo f d acts st' h j v w W O Fd Ca Us H Hv Hw P L)). Qed.

Lemma forced_halts : forall n st af fo f d acts st' h j v, wellformed n st af fo -> one_follower fo f -> fair d -> counts_of n acts ->
  (forall U, p_seen st = Some U -> shaped n (length (s_apps (p_base st))) U) ->
  prob_step st d acts = Ok st' -> sees (p_base st) h j v -> forced_to_stop st acts h j -> ~ starts_after_activity st d acts h j ->
  exists w, sees (p_base st') h j w /\ halted v w.
Proof.
  intros n st af fo f d acts st' h j v W O Fd Ca Us H Hv Fo A. pose proof W as (W1 & _).
  assert (X : exists b, counted st h j b).
  { unfold counted. assert (Lhj : h < n /\ j < length (s_apps (p_base st))) by (destruct W1 as (S1 & _); destruct Hv as (_ & V2 & _); exact (at2_shaped _ _ _ _ _ _ _ S1 V2)).
    destruct (p_seen st) as [U|] eqn:E.
    - apply (shaped_at2 _ n (length (s_apps (p_base st)))); [apply Us; reflexivity|apply Lhj|apply Lhj].
    - eexists. eapply usage_at; [apply (base_step_sees _ _ _ _ Hv)|reflexivity]. }
  destruct X as [[|] Hb].
  - destruct (outcome_used n st af fo f d acts st' h j v W O Fd Ca H Hv Hb) as (w & S & G & _). exists w. auto.
  - destruct (outcome_free n st af fo f d acts st' h j v W O Fd Ca H Hv Hb) as (w & S & _ & _ & _ & _ & G). exists w. split; [exact S|]. apply G; [|exact A|exact Fo].
    intros (r & c & p & X & P & Y & _). destruct Fo as (r' & a & X' & _ & _ & [Z _]). rewrite (at_fun _ _ _ _ _ X' X) in Z. pose proof (performs_fun _ _ _ _ _ Y Z). lia.
Qed.

Lemma runs_out : forall n step apps related af fo f hh_types groups own algo sw fu p1 p2 start wait acts0 st0 l st h j r,
  constructed n step apps related af fo hh_types groups own algo sw fu p1 p2 start wait acts0 st0 -> flowing apps -> one_follower fo f ->
  fair_run n l -> prob_run st0 l = Ok st ->
  at_ related j r -> at_ af j "nan"%string -> at_ fo j "nan"%string -> (forall acts, In acts (inputs l) -> ~ mentions acts r /\ ~ mentions acts "nan"%string) -> h < n ->
  exists v w, sees (p_base st0) h j v /\ sees (p_base st) h j w /\ same_static v w /\
    (whole_day r -> 0 < v_dur v -> v_left v = qn (start h j)) /\ (~ (whole_day r /\ 0 < v_dur v) -> v_left v = 0%Q) /\
    (v_left v <= qn (length (inputs l)) -> v_left w <= 0)%Q /\ (qn (length (inputs l)) < v_left v -> v_left w == v_left v - qn (length (inputs l)))%Q.
Proof.
  intros n step apps related af fo f hh_types groups own algo sw fu p1 p2 start wait acts0 st0 l st h j r C Fl O F H Er Ea Ef N Lh.
  pose proof (constructed_steady _ _ _ _ _ _ _ _ _ _ _ _ _ _ _ _ _ _ C Fl) as S.
  destruct (constructed_ok _ _ _ _ _ _ _ _ _ _ _ _ _ _ _ _ _ _ C) as (W & R & P & _ & Ow & _ & La & _ & Em).
  pose proof C as ((L1 & _) & So & _). assert (Lj : j < length (s_apps (p_base st0))) by (rewrite La, <- L1; exact (at_lt _ _ _ _ Er)).
  destruct (simulates_sees n _ h j (proj1 W) Lh Lj) as [v Hv]. rewrite <- R in Er.
  destruct (untouched_run n af fo f l st0 st h j v r S O F H Hv Er N Ea Ef) as (w & Hw & T & C1 & C2).
  exists v, w. split; [exact Hv|]. split; [exact Hw|]. split; [exact T|]. rewrite R in Er.
  destruct (parent_left apps related own algo sw fu p1 p2 start wait n L1 So _ Em) as (_ & Cl). destruct (Cl h j v r Hv Er) as [X Y].
  split; [intros Wd Du; apply X; assumption|]. split; [exact Y|]. split; [exact C1|exact C2].
Qed.

Lemma reading : forall st h j v, current st -> sees (p_base st) h j v ->
  (at2 (usage_read st) h j true <-> v_own v = true /\ (0 < v_left v)%Q) /\
  forall P, prob_power st = Ok P -> exists p, at2 P h j p /\
    (v_own v = false -> p == 0)%Q /\ (v_own v = true -> v_left v <= 0 -> p == ap_standby (v_app v))%Q /\
    (v_own v = true -> 0 < v_left v -> ap_variable (v_app v) = false -> p == ap_power (v_app v))%Q.
Proof.
  intros st h j v C Hv. assert (E : usage_read st = get_current_usage (p_base st)) by (unfold usage_read; destruct C as [X|X]; rewrite X; reflexivity).
  assert (U : at2 (get_current_usage (p_base st)) h j (Qltb 0 (v_left v) && v_own v)) by (apply (usage_at _ _ _ _ _ Hv); reflexivity).
  split.
  - rewrite E. split.
    + intro X. pose proof (at2_fun _ _ _ _ _ _ X U) as Y. symmetry in Y. apply andb_true_iff in Y. destruct Y as [Y ->]. apply Qltb_lt in Y. auto.
    + intros [Ow L]. rewrite Ow, (proj2 (Qltb_lt _ _) L) in U. exact U.
  - intros P H. unfold prob_power in H. rewrite E in H. destruct (power_of_at (p_base st) _ P h j v _ H Hv U) as (p & Hp & A & B & _).
    exists p. split; [exact Hp|]. split; [|split].
    + intro Ow. rewrite A by (rewrite Ow; apply andb_false_r). rewrite Ow. unfold b2q. ring.
    + intros Ow L. rewrite A; [rewrite Ow; unfold b2q; ring|]. apply andb_false_iff. left. destruct (Qltb 0 (v_left v)) eqn:X; [|reflexivity]. apply Qltb_lt in X. lra.
    + intros Ow L Va. apply B; [|exact Va]. rewrite Ow, (proj2 (Qltb_lt _ _) L). reflexivity.
Qed.

Lemma runs_defined : forall n step apps related af fo f hh_types groups own algo sw fu p1 p2 start wait acts0 st0 l,
  constructed n step apps related af fo hh_types groups own algo sw fu p1 p2 start wait acts0 st0 -> flowing apps -> one_follower fo f ->
  fair_run n l -> steady related (acts0 :: inputs l) -> exists st, prob_run st0 l = Ok st.
Proof.
  intros n step apps related af fo f hh_types groups own algo sw fu p1 p2 start wait acts0 st0 l C Fl O F Hs.
  destruct (constructed_ok _ _ _ _ _ _ _ _ _ _ _ _ _ _ _ _ _ _ C) as (W & R & P & _).
  eapply (run_defined n af fo f); [exact (constructed_steady _ _ _ _ _ _ _ _ _ _ _ _ _ _ _ _ _ _ C Fl)|exact O|exact F|]. rewrite R, P. exact Hs.
Qed.

Lemma left_out : forall n st af fo f d acts act j, wellformed n st af fo -> flowing (s_apps (p_base st)) -> (forall U, p_seen st = Some U -> shaped n (length (s_apps (p_base st))) U) ->
  one_follower fo f -> fair d -> counts_of n acts -> counts_of n (p_prev st) ->
  mentions acts act -> at_ (p_related st) j act -> ~ mentions (p_prev st) act -> (forall act' i, mentions acts act' -> at_ (p_related st) i act' -> act' <> act -> mentions (p_prev st) act') ->
  prob_step st d acts = Err KeyError.
Proof. intros n st af fo f d acts act j W Fl Us O Fd Ca Cp. apply (left_out_step n st af fo f); auto. split; [exact W|]. split; [exact Fl|]. auto. Qed.

Lemma columns_needed : forall step apps related af fo hh_types groups own algo sw fu p1 p2 start wait acts, af = None \/ fo = None ->
  make_prob step apps related af fo hh_types groups own algo sw fu p1 p2 start wait acts = Err KeyError.
Proof. intros. unfold make_prob, sample_switch_on_probs. destruct H as [H|H]; subst; [reflexivity|]. destruct af; reflexivity. Qed.

(** ** Appliances kept *)

Lemma prob_kept : forall related probabilistic keys j r, at_ related j r -> (forall p, probabilistic = Some p -> length p = length related) ->
  exists b, at_ (fst (prob_compatible related probabilistic keys)) j b /\
    (b = true <-> (In r keys \/ whole_day r) /\ forall p, probabilistic = Some p -> at_ p j true).
Proof.
  intros related pr keys j r Er L. unfold prob_compatible. cbn [fst]. set (q := match pr with None => map (fun _ => true) related | Some p => p end).
  assert (Lq : length q = length related) by (unfold q; destruct pr as [p|]; [apply L; reflexivity|apply map_length]).
  destruct (kept_spec related (Some (map negb q)) keys j r Er) as (b & Hb & K). { intros p E. injection E as <-. rewrite map_length. exact Lq. }
  exists b. split; [exact Hb|]. rewrite K. split; intros [A B]; (split; [exact A|]).
  - intros p ->. specialize (B _ eq_refl). apply at_map in B. destruct B as (x & Ex & Nx). destruct x; [exact Ex|discriminate].
  - intros p E. injection E as <-. apply at_map. exists true. split; [|reflexivity]. unfold q. destruct pr as [p|]; [apply B; reflexivity|]. apply at_map. exists r. auto.
Qed.

Lemma prob_split : forall related p keys j r, at_ related j r -> length p = length related ->
  exists b b', at_ (fst (prob_compatible related (Some p) keys)) j b /\ at_ (compatible_mask related (Some p) keys) j b' /\
    (In r keys \/ whole_day r -> b' = negb b) /\ (~ (In r keys \/ whole_day r) -> b = false /\ b' = false).
Proof.
  intros related p keys j r Er L. assert (Lp : forall q, Some p = Some q -> length q = length related) by (intros q E; injection E as <-; exact L).
  destruct (prob_kept related (Some p) keys j r Er Lp) as (b & Hb & K). destruct (kept_spec related (Some p) keys j r Er Lp) as (b' & Hb' & K').
  exists b, b'. split; [exact Hb|]. split; [exact Hb'|]. destruct (lt_at _ p j) as [x Hx]; [rewrite L; exact (at_lt _ _ _ _ Er)|].
  assert (Kx : b = true <-> (In r keys \/ whole_day r) /\ x = true) by (rewrite K; split; intros [A B]; (split; [exact A|]); [exact (at_fun _ _ _ _ _ Hx (B p eq_refl))|intros q E; injection E as <-; rewrite <- B; exact Hx]).
  assert (Kx' : b' = true <-> (In r keys \/ whole_day r) /\ x = false) by (rewrite K'; split; intros [A B]; (split; [exact A|]); [exact (at_fun _ _ _ _ _ Hx (B p eq_refl))|intros q E; injection E as <-; rewrite <- B; exact Hx]).
  clear - Kx Kx'. split; intro A.
  - destruct b, b', x; try reflexivity; exfalso; [destruct (proj1 Kx' eq_refl); discriminate|destruct (proj1 Kx' eq_refl); discriminate || (destruct (proj1 Kx eq_refl); discriminate)| |]; first [discriminate (proj2 Kx (conj A eq_refl))|discriminate (proj2 Kx' (conj A eq_refl))].
  - split; [destruct b|destruct b']; try reflexivity; exfalso; apply A; [apply Kx|apply Kx']; reflexivity.
Qed.
