(** * Proofs about appliances started at random: whole steps. *)

From Coq Require Import String List ZArith QArith Bool Arith Lia Lqa.
From Verif Require Import Prelude PreludeFacts SpecBase SpecBaseFacts Parse_Model Appliance_Model Appliance_Spec AppSetup_Model AppSetup_Spec ActApp_Model ActApp_Spec ProbApp_Model ProbApp_Spec.
From Verif Require Import Parse_GroupProofs Matrix_Proofs Appliance_Proofs Appliance_RunProofs Appliance_TypeProofs AppSetup_Proofs AppSetup_InitProofs ActApp_Proofs ProbApp_Proofs.
Import ListNotations.
Local Open Scope nat_scope.

(** ** The appliance that follows another one *)

Lemma is_nan_spec : forall s, is_nan s = true <-> s = "nan"%string.
Proof. intro s. apply String.eqb_eq. Qed.

Lemma where_from_single : forall m k i, nth_error m k = Some true -> (forall q, nth_error m q = Some true -> q = k) -> where_from i m = [i + k].
Proof.
  induction m as [|b m IH]; intros k i H U; [destruct k; discriminate|]. destruct k as [|k]; cbn [nth_error] in H.
  - injection H as ->. cbn [where_from]. rewrite Nat.add_0_r. f_equal.
    assert (N : forall q, nth_error m q <> Some true) by (intros q X; specialize (U (S q) X); discriminate).
    clear -N. revert i N. generalize (S 0) as o. intros o i. revert m. clear o.
    assert (G : forall m o, (forall q, nth_error m q <> Some true) -> where_from o m = []).
    { induction m as [|b m IH]; intros o N; [reflexivity|]. cbn [where_from]. destruct b; [exfalso; apply (N 0); reflexivity|]. apply IH. intros q X. apply (N (S q) X). }
    intros m N. apply G. exact N.
  - cbn [where_from]. destruct b; [specialize (U 0 eq_refl); discriminate|]. rewrite (IH k (S i) H); [f_equal; lia|]. intros q X. specialize (U (S q) X). lia.
Qed.

Lemma followers_one : forall follows f, one_follower follows f -> followers follows = [f].
Proof.
  intros follows f [L H]. unfold followers, where_true. rewrite (where_from_single _ f 0); [reflexivity| |].
  - destruct (lt_at _ _ _ L) as [s Es]. rewrite nth_error_map. unfold at_ in Es. rewrite Es. simpl. f_equal. apply negb_true_iff.
    destruct (is_nan s) eqn:E; [|reflexivity]. apply is_nan_spec in E. exfalso. apply (proj2 (H f s Es) eq_refl). exact E.
  - intros q X. rewrite nth_error_map in X. destruct (nth_error follows q) as [s|] eqn:Es; [|discriminate]. simpl in X. injection X as X. apply negb_true_iff in X.
    apply (H q s Es). intro Y. apply is_nan_spec in Y. congruence.
Qed.

Lemma same_strings_one : forall x l, same_strings [x] l = Ok (map (String.eqb x) l).
Proof.
  intros x l. unfold same_strings. destruct (Nat.eqb_spec (length [x]) (length l)) as [E|]; [|reflexivity].
  destruct l as [|y [|z l]]; simpl in E; try discriminate. reflexivity.
Qed.

Lemma times_ones_one : forall f s, times_ones [f] s = Ok (repeat f s).
Proof. intros f s. unfold times_ones. destruct (Nat.eqb_spec (length [f]) s) as [<-|]; reflexivity. Qed.

Lemma compress_count : forall A m (l : list A), length m = length l -> length (compress m l) = count_true m.
Proof.
  induction m as [|b m IH]; intros [|x l] E; try discriminate; [reflexivity|]. injection E as E. unfold count_true in *. destruct b; simpl; rewrite IH by exact E; reflexivity.
Qed.

Lemma combine_repeat_in : forall A B (l : list A) (f : B) x y, In (x, y) (combine l (repeat f (length l))) <-> In x l /\ y = f.
Proof.
  induction l as [|a l IH]; intros f x y; simpl; [tauto|]. rewrite IH. split.
  - intros [E|[I ->]]; [injection E as <- <-; auto|auto].
  - intros [[<-|I] ->]; auto.
Qed.

Lemma candidates_one : forall follows types f t stopped, one_follower follows f -> at_ follows f t -> (forall h i, In (h, i) stopped -> i < length types) ->
  exists cands, follow_candidates follows types stopped = Ok cands /\
    forall h i k, In ((h, i), k) cands <-> k = f /\ In (h, i) stopped /\ at_ types i t.
Proof.
  intros follows types f t stopped O Ef Hs. unfold follow_candidates. rewrite (followers_one _ _ O). cbn [mapM].
  apply vget_ok in Ef. rewrite Ef. cbn [bind].
  destruct (mapM_total _ _ (fun k : nat * nat => vget types (snd k)) stopped) as [ended Ee].
  { intros [h i] I. destruct (lt_at _ _ _ (Hs h i I)) as [x Ex]. exists x. apply vget_ok. exact Ex. }
  rewrite Ee. cbn [bind]. rewrite same_strings_one. cbn [bind]. rewrite times_ones_one. cbn [bind].
  destruct (mapM_at _ _ _ _ _ Ee) as [Le Ae]. rewrite map_length, Le, Nat.eqb_refl. cbn [negb].
  assert (Lc : length (compress (map (String.eqb t) ended) stopped) = count_true (map (String.eqb t) ended)) by (apply compress_count; rewrite map_length; exact Le).
  rewrite repeat_length, Lc, Nat.eqb_refl. cbn [negb]. eexists. split; [reflexivity|]. intros h i k. rewrite <- Lc, combine_repeat_in, compress_at. split.
  - intros ((q & M & S) & ->). split; [reflexivity|]. split; [eapply at_in; exact S|]. apply at_map in M. destruct M as (y & Ey & T). symmetry in T. apply String.eqb_eq in T. subst y.
    apply Ae in Ey. destruct Ey as (k' & Ek & Ev). assert (k' = (h, i)) by (eapply at_fun; eauto). subst k'. apply vget_ok in Ev. exact Ev.
  - intros (-> & I & At). split; [|reflexivity]. destruct (in_at _ _ _ I) as [q Eq]. exists q. split; [|exact Eq]. apply at_map. exists t. split; [|symmetry; apply String.eqb_refl].
    apply Ae. exists (h, i). split; [exact Eq|]. apply vget_ok. exact At.
Qed.

(** ** A step *)

Definition ticked_view (v : view) : view := recount v (tick_left (v_left v)) (tick_refresh (v_refresh v)).

(** Whether the appliance counts as used during the step. *)
Definition counted (st : probsim) (h j : nat) (b : bool) : Prop :=
  match p_seen st with
  | Some U => at2 U h j b
  | None => at2 (get_current_usage (update_iteration_variables (p_base st))) h j b
  end.

Lemma ended_in : forall s h i, In (h, i) (where2 (ended_mask s)) <-> exists l, at2 (s_left s) h i l /\ (0 < l <= 1)%Q.
Proof.
  intros s h i. rewrite where2_in. unfold ended_mask. rewrite at2_map. split.
  - intros (l & E & T). exists l. split; [exact E|]. symmetry in T. apply andb_true_iff in T. destruct T as [T1 T2]. apply Qltb_lt in T1. split; [exact T1|].
    unfold tick_left in T2. rewrite (proj2 (Qltb_lt 0 l) T1) in T2. apply negb_true_iff in T2.
    destruct (Qlt_le_dec 0 (l - 1)) as [X|X]; [apply Qltb_lt in X; congruence|lra].
  - intros (l & E & T1 & T2). exists l. split; [exact E|]. symmetry. apply andb_true_iff. split; [apply Qltb_lt; exact T1|].
    unfold tick_left. rewrite (proj2 (Qltb_lt 0 l) T1). apply negb_true_iff. destruct (Qltb 0 (l - 1)) eqn:X; [|reflexivity]. apply Qltb_lt in X. lra.
Qed.

Lemma cell_dec : forall (l : list (nat * nat)) h j, In (h, j) l \/ ~ In (h, j) l.
Proof.
  intros l h j. destruct (in_dec (fun a b : nat * nat => ltac:(decide equality; apply Nat.eq_dec)) (h, j) l); auto.
Qed.

Lemma in_acts : forall acts n r h c, counts_of n acts -> (performs acts r h c <-> exists l, In (r, l) acts /\ at_ l h c).
Proof.
  intros acts n r h c [ND _]. unfold performs. split.
  - intros (l & E & A). exists l. split; [|exact A]. clear -E. induction acts as [|[k x] acts IH]; cbn [dget] in E; [discriminate|].
    destruct (String.eqb_spec r k) as [->|]; [injection E as ->; left; reflexivity|right; auto].
  - intros (l & I & A). exists l. split; [|exact A]. induction acts as [|[k x] acts IH]; [contradiction|]. cbn [dget]. inversion ND as [|? ? N ND']. subst.
    destruct I as [I|I]; [injection I as -> ->; rewrite String.eqb_refl; reflexivity|].
    destruct (String.eqb_spec r k) as [->|]; [|auto]. exfalso. apply N. apply in_map_iff. exists (k, l). auto.
Qed.

Lemma last_true : forall ops, ops <> [] -> ~ In false ops -> last ops false = true.
Proof.
  induction ops as [|[|] ops IH]; intros N F; [contradiction| |exfalso; apply F; left; reflexivity]. destruct ops as [|x ops]; [reflexivity|].
  change (last (true :: x :: ops) false) with (last (x :: ops) false). apply IH; [discriminate|]. intro X. apply F. right. exact X.
Qed.
Lemma last_false : forall ops, ~ In true ops -> last ops false = false.
Proof.
  induction ops as [|[|] ops IH]; intros F; [reflexivity|exfalso; apply F; left; reflexivity|]. destruct ops as [|x ops]; [reflexivity|].
  change (last (false :: x :: ops) false) with (last (x :: ops) false). apply IH. intro X. apply F. right. exact X.
Qed.
Lemma last_app_r : forall (a b : list bool), b <> [] -> last (List.app a b) false = last b false.
Proof.
  induction a as [|x a IH]; intros b N; [reflexivity|]. cbn [List.app]. destruct (List.app a b) eqn:E; [destruct a; [contradiction|discriminate]|].
  change (last (x :: b0 :: l) false) with (last (b0 :: l) false). rewrite <- E. apply IH. exact N.
Qed.

Lemma dictated_false : forall st af fo j n, wellformed n st af fo -> j < length (s_apps (p_base st)) ->
  (dictated st j = false <-> at_ af j "nan"%string /\ at_ fo j "nan"%string).
Proof.
  intros st af fo j n (_ & _ & Ea & La & Ef & Lf & _) Lj. unfold dictated, named. rewrite Ea, Ef.
  destruct (lt_at _ af j) as [x Ex]; [lia|]. destruct (lt_at _ fo j) as [y Ey]; [lia|]. unfold at_ in *. rewrite Ex, Ey.
  rewrite orb_false_iff, !negb_false_iff, !is_nan_spec. split; [intros [-> ->]; auto|]. intros [A B]. split; congruence.
Qed.

Section Step.
  Variables (n : nat) (st : probsim) (af fo : list string) (f : nat) (d : pdraws) (acts : list (string * list Z)) (st' : probsim).
  Hypothesis W : wellformed n st af fo.
  Hypothesis O : one_follower fo f.
  Hypothesis Fd : fair d.
  Hypothesis Ca : counts_of n acts.
  Hypothesis H : prob_step st d acts = Ok st'.

  Lemma step_fixed : wellformed n st' af fo /\ p_prev st' = acts /\ p_seen st' = None /\ same_data (p_base st) (p_base st') /\
    p_related st' = p_related st /\ p_probs st' = p_probs st.
  Proof.
    pose proof W as (W1 & W2 & W3 & W4 & W5 & W6 & W7). unfold prob_step in H. destruct (follow_step _ _ _) as [st1|] eqn:E1; [|discriminate]. cbn [bind] in H.
    destruct (fold_result _ _ _) as [st2|] eqn:E2; [|discriminate]. cbn [bind] in H. injection H as <-.
    assert (F1 : fixed (with_base st (update_iteration_variables (p_base st))) st1).
    { unfold follow_step in E1. simpl p_follows in E1. rewrite W5 in E1. destruct (follow_candidates _ _ _) as [cands|]; [|discriminate]. cbn [bind] in E1.
      destruct (sampled _ _ _) as [chosen|]; [|discriminate]. cbn [bind] in E1. destruct (switch_on _ _ _) as [s|] eqn:Eo; [|discriminate]. cbn [bind] in E1. injection E1 as <-.
      destruct (on_ok _ _ _ _ Eo) as (D & S & _). split; [exact D|]. simpl. auto 10. }
    assert (Ea1 : p_after st1 = Some af) by (destruct F1 as (_ & _ & _ & -> & _); exact W3).
    pose proof (fold_fixed _ _ _ _ _ Fd Ea1 E2) as F2.
    assert (F : fixed (with_base st (update_iteration_variables (p_base st))) st2) by (eapply fixed_trans; eauto).
    destruct F as (D & S & R1 & R2 & R3 & R4 & R5). simpl in R1, R2, R3, R4, R5, D, S.
    assert (D' : same_data (p_base st) (p_base st2)) by (eapply same_data_trans; [|exact D]; unfold same_data; simpl; auto).
    pose proof D' as (Da & _).
    split. { unfold wellformed. simpl. rewrite Da. split; [apply S; apply base_step_simulates; exact W1|]. rewrite R1, R2, R3, R4. auto 10. }
    simpl. auto 10.
  Qed.

  Lemma step_cell : forall h j v b, sees (p_base st) h j v -> counted st h j b ->
    exists ops ops1 ops2 w, evolve (ticked_view v) ops w /\ sees (p_base st') h j w /\ ops = List.app ops1 ops2 /\
      (In true ops1 <-> b = false /\ starts_after_appliance st d h j) /\ ~ In false ops1 /\
      (In true ops2 <-> b = false /\ (starts_by_activity st d acts h j \/ starts_after_activity st d acts h j)) /\
      (In false ops2 <-> forced_to_stop st acts h j) /\
      (forall a, at_ af j a -> at_ (p_related st) j a -> b = false -> starts_after_activity st d acts h j -> last ops2 false = true).
  Proof.
    intros h j v b Hv Hc. pose proof W as (W1 & W2 & W3 & W4 & W5 & W6 & W7).
    pose proof H as H'. unfold prob_step in H'. set (base := update_iteration_variables (p_base st)) in *.
    destruct (follow_step _ _ _) as [st1|] eqn:E1; [|discriminate]. cbn [bind] in H'.
    destruct (fold_result _ _ _) as [st2|] eqn:E2; [|discriminate]. cbn [bind] in H'. injection H' as <-. simpl p_base.
    assert (Lhj : h < n /\ j < length (s_apps (p_base st))) by (destruct W1 as (S1 & _); destruct Hv as (_ & V2 & _); exact (at2_shaped _ _ _ _ _ _ _ S1 V2)).
    destruct Lhj as [Lh Lj]. destruct (shaped_at2 _ _ _ _ h j W7 Lh Lj) as [p Hp]. destruct (lt_at _ (p_related st) j) as [r Er]; [lia|].
    assert (Hap : at_ (s_apps (p_base st)) j (v_app v)) by apply Hv.
    assert (Ht : sees base h j (ticked_view v)) by (apply (base_step_sees _ _ _ _ Hv)).
    set (stt := with_base st base) in *.
    assert (Ub : at2 (usage_read stt) h j b). { unfold counted in Hc. unfold usage_read, stt. simpl. destruct (p_seen st); exact Hc. }
    set (U := usage_read stt) in *.
    unfold follow_step in E1. change (p_follows stt) with (p_follows st) in E1. rewrite W5 in E1.
    destruct (lt_at _ fo f (proj1 O)) as [t Et].
    destruct (candidates_one fo (map ap_type (s_apps (p_base stt))) f t (where2 (ended_mask (p_base st))) O Et) as (cands & Ec & Ic).
    { intros h' i I. apply ended_in in I. destruct I as (l & I & _). rewrite map_length. simpl. destruct W1 as (_ & S2 & _). exact (proj2 (at2_shaped _ _ _ _ _ _ _ S2 I)). }
    rewrite Ec in E1. cbn [bind] in E1. destruct (sampled _ _ _) as [chosen|] eqn:Es; [|discriminate]. cbn [bind] in E1.
    destruct (switch_on _ _ _) as [s|] eqn:Eo; [|discriminate]. cbn [bind] in E1. injection E1 as <-.
    destruct (on_ok _ _ _ _ Eo) as (D & S & C). simpl p_base in C, D, S. fold base in C, D, S. destruct (C h j _ Ht) as [C1 C2].
    assert (Fol : In (h, j) (map start_of chosen) <-> b = false /\ starts_after_appliance st d h j).
    { rewrite in_map_iff. split.
      - intros ([[h' i] k] & Ek & I). unfold start_of in Ek. simpl in Ek. injection Ek as -> ->. apply (sampled_in _ _ _ _ _ Es) in I. destruct I as (I & q & Eq & T).
        apply Ic in I. destruct I as (-> & I & At). unfold one_time_prob, start_of in Eq. simpl fst in Eq. simpl snd in Eq.
        change (usage_read (look stt)) with U in Eq. change (p_probs (look stt)) with (p_probs st) in Eq.
        apply mget_ok in Ub. pose proof Hp as Hp'. apply mget_ok in Hp'. rewrite Ub, Hp' in Eq. cbn [bind] in Eq. injection Eq as <-.
        simpl fst in T. simpl snd in T. rewrite drawn_gate in T by apply Fd. apply andb_true_iff in T. destruct T as [T1 T2]. apply negb_true_iff in T1. split; [exact T1|].
        apply ended_in in I. destruct I as (l & I & L). apply at_map in At. destruct At as (a & Ea & Eat). simpl in Ea.
        destruct (simulates_sees n _ h i W1 Lh) as [w Hw]. { exact (at_lt _ _ _ _ Ea). }
        assert (Ew : v_left w = l) by (destruct Hw as (_ & _ & X & _); eapply at2_fun; eauto). assert (Ew' : v_app w = a) by (destruct Hw as (X & _); eapply at_fun; eauto).
        exists t, i, w, p. split; [eauto|]. split; [apply (proj2 O f t Et); reflexivity|]. split; [exact Hw|]. rewrite Ew, Ew'. split; [auto|]. split; [exact L|]. split; [exact Hp|].
        apply drawn_below. exact T2.
      - intros (-> & t' & i & w & q & (fo' & Ef & Ej) & Nn & Hw & Ety & L & Hq & B). assert (fo' = fo) by congruence. subst fo'.
        assert (j = f) by (apply (proj2 O j t' Ej); exact Nn). subst f. assert (t' = t) by (eapply at_fun; eauto). subst t'. assert (q = p) by (eapply at2_fun; eauto). subst q.
        exists ((h, i), j). split; [reflexivity|]. apply (sampled_in _ _ _ _ _ Es). split.
        + apply Ic. split; [reflexivity|]. split; [apply ended_in; exists (v_left w); split; [apply Hw|exact L]|]. apply at_map. exists (v_app w). simpl. split; [apply Hw|auto].
        + unfold one_time_prob, start_of. simpl fst. simpl snd. change (usage_read (look stt)) with U. change (p_probs (look stt)) with (p_probs st).
          apply mget_ok in Ub. apply mget_ok in Hp. rewrite Ub, Hp. cbn [bind]. eexists. split; [reflexivity|]. rewrite drawn_gate by apply Fd. apply drawn_below. exact B. }
    assert (X1 : exists ops1 v1, evolve (ticked_view v) ops1 v1 /\ sees s h j v1 /\ (In true ops1 <-> b = false /\ starts_after_appliance st d h j) /\ ~ In false ops1).
    { destruct (cell_dec (map start_of chosen) h j) as [I|I].
      - destruct (C1 I) as (w & K1 & K2). exists [true], w. split; [exists w; split; [exact K1|reflexivity]|]. split; [exact K2|]. rewrite <- Fol. simpl. intuition discriminate.
      - exists [], (ticked_view v). split; [reflexivity|]. split; [exact (C2 I)|]. rewrite <- Fol. simpl. tauto. }
    destruct X1 as (ops1 & v1 & A1 & A2 & A3 & A4).
    set (st1 := with_base (look stt) s) in *.
    assert (F1 : fixed stt st1) by (split; [exact D|]; simpl; auto 10).
    assert (Sim1 : simulates n (p_base st1)) by (apply S; apply base_step_simulates; exact W1).
    destruct (fold_cell stt d af h j b p r (v_app v) acts st1 st2 U v1 n Fd F1 Sim1 W3 Er Hap Hp Ub eq_refl E2 A2) as (ops2 & w & B1 & B2 & B3 & B4 & B5).
    assert (By : forall item, In item acts -> (go_at stt d af h j b p r item <-> exists c o, b = false /\ (exists i, at_ (p_related st) i (fst item)) /\ performs acts (fst item) h c /\ performs (p_prev st) (fst item) h o /\
        ((at_ af j (fst item) /\ o <> 0%Z /\ c = 0%Z /\ below (d_after d (fst item) h j) p) \/ (r = fst item /\ (0 < c)%Z /\ dictated st j = false /\ below (d_act d (fst item) h j) p)))).
    { intros [act now] I. unfold go_at. cbn [fst snd]. change (p_related stt) with (p_related st). change (p_prev stt) with (p_prev st). change (dictated stt j) with (dictated st j). setoid_rewrite drawn_below.
      assert (P : forall c, at_ now h c <-> performs acts act h c).
      { intro c. rewrite (in_acts acts n act h c Ca). split; [eauto|]. intros (l & I' & A). destruct Ca as [ND _].
        assert (l = now); [|subst; exact A]. clear -ND I I'. induction acts as [|[k x] t IH]; [contradiction|]. inversion ND as [|? ? N ND']. subst.
        destruct I as [I|I], I' as [I'|I'].
        - congruence.
        - exfalso. apply N. injection I as -> ->. apply in_map_iff. exists (act, l). auto.
        - exfalso. apply N. injection I' as -> ->. apply in_map_iff. exists (act, now). auto.
        - auto. }
      split.
      - intros (Ex & B & c & o & Y1 & Y2 & Y3). exists c, o. apply P in Y1. auto 10.
      - intros (c & o & B & Ex & Y1 & Y2 & Y3). split; [exact Ex|]. split; [exact B|]. exists c, o. apply P in Y1. auto 10. }
    assert (Bo : forall item, In item acts -> off_at stt h r (v_app v) item -> r = fst item /\ forced_to_stop st acts h j).
    { intros [act now] I (-> & Off & c & o & Y1 & Y2 & Y3 & Y4). cbn [fst snd] in *. split; [reflexivity|]. exists act, (v_app v). split; [exact Er|]. split; [exact Hap|]. split; [exact Off|].
      split; [|exists o; auto]. apply (in_acts acts n act h 0%Z Ca). subst c. eauto. }
    exists (List.app ops1 ops2), ops1, ops2, w. split; [eapply evolve_app; eauto|]. split; [exact B2|]. split; [reflexivity|]. split; [exact A3|]. split; [exact A4|]. split; [|split].
    - rewrite B3. split.
      + intros (item & I & G). apply (By item I) in G. destruct G as (c & o & B & Ex & Y1 & Y2 & [(Z1 & Z2 & Z3 & Z4)|(Z1 & Z2 & Z3 & Z4)]); (split; [exact B|]).
        * right. destruct Ex as [i Ei]. exists (fst item), p, i. split; [eauto|]. split; [exact Ei|]. split; [|auto]. subst c. split; [exact Y1|]. exists o. auto.
        * left. exists r, c, p. split; [exact Er|]. split; [exact Z2|]. rewrite <- Z1 in *. split; [exact Y1|]. split; [exact Hp|]. split; [exact Z4|].
          apply (dictated_false st af fo j n W Lj) in Z3. destruct Z3 as [Z3 Z5]. split; [intros a Ea; congruence|intros a Ea; congruence].
      + intros (B & [(r' & c & q & Y1 & Y2 & Y3 & Y4 & Y5 & Y6 & Y7)|(a & q & i & (af' & Ea & Ej) & Y2 & [Y3 (o & Y4 & Y5)] & Y6 & Y7)]).
        * assert (r' = r) by (eapply at_fun; eauto). subst r'. assert (q = p) by (eapply at2_fun; eauto). subst q. pose proof Y3 as Y3'. apply (in_acts acts n r h c Ca) in Y3'. destruct Y3' as (l & I & _).
          exists (r, l). split; [exact I|]. apply (By _ I). cbn [fst].
          (* the previous count exists since the loop did not fail *)
          assert (Po : exists o, performs (p_prev st) r h o).
          { clear -E2 I Er W1 Lh F1 Fd W3 D. assert (Go : forall l1 s1 s2, fixed stt s1 -> fold_result (prob_turn d) l1 s1 = Ok s2 -> In (r, l) l1 -> exists o, performs (p_prev st) r h o).
            { induction l1 as [|x l1 IH]; intros s1 s2 F E I'; [contradiction|]. cbn [fold_result] in E. destruct (prob_turn d s1 x) as [s3|] eqn:Ex; [|discriminate]. cbn [bind] in E.
              assert (Ea : p_after s1 = Some af) by (destruct F as (_ & _ & _ & -> & _); exact W3).
              destruct I' as [->|I'].
              - unfold prob_turn in Ex. destruct (existsb (fun b => b) (map (String.eqb r) (p_related s1))) eqn:T; cbn [negb] in Ex.
                2:{ exfalso. assert (T' : existsb (fun b => b) (map (String.eqb r) (p_related s1)) = true); [|congruence]. apply some_mask. exists j. destruct F as (_ & _ & -> & _). exact Er. }
                destruct F as (Fd' & _ & _ & _ & _ & _ & F7). rewrite F7 in Ex. change (p_prev stt) with (p_prev st) in Ex. destruct (dget String.eqb (p_prev st) r) as [before|] eqn:Eb; [|discriminate].
                destruct (Nat.eqb_spec (length before) (length (s_own (p_base s1)))) as [L1|]; [|discriminate]. destruct Fd' as (_ & Fo & _). rewrite Fo in L1. simpl in L1.
                destruct W1 as ([Ln _] & _). destruct (lt_at _ before h) as [o Eo']; [lia|]. exists o, before. auto.
              - destruct (turn_fixed _ _ _ _ _ Fd Ea Ex) as [F' _]. eapply IH; [eapply fixed_trans; eauto|exact E|exact I']. }
            eapply Go; eauto. }
          destruct Po as [o Po]. exists c, o. split; [exact B|]. split; [exists j; exact Er|]. split; [exact Y3|]. split; [exact Po|]. right. split; [reflexivity|]. split; [exact Y2|]. split; [|exact Y5].
          apply (dictated_false st af fo j n W Lj). split; [apply Y6; exact W3|apply Y7; exact W5].
        * assert (af' = af) by congruence. subst af'. assert (q = p) by (eapply at2_fun; eauto). subst q. pose proof Y3 as Y3'. apply (in_acts acts n a h 0%Z Ca) in Y3'. destruct Y3' as (l & I & _).
          exists (a, l). split; [exact I|]. apply (By _ I). cbn [fst]. exists 0%Z, o. split; [exact B|]. split; [eauto|]. split; [exact Y3|]. split; [exact Y5|]. left. auto.
    - rewrite B4. split.
      + intros (item & I & G). exact (proj2 (Bo item I G)).
      + intros (r' & a & Y1 & Y2 & Y3 & [Y4 (o & Y5 & Y6)]). assert (r' = r) by (eapply at_fun; eauto). subst r'. assert (a = v_app v) by (eapply at_fun; eauto). subst a.
        apply (in_acts acts n r h 0%Z Ca) in Y4. destruct Y4 as (l & I & A). exists (r, l). split; [exact I|]. split; [reflexivity|]. split; [exact Y3|]. exists 0%Z, o. auto.
    - intros a Ea Era B (a' & q & i & (af' & Eaf & Ej) & Y2 & [Y3 (o & Y4 & Y5)] & Y6 & Y7). assert (af' = af) by congruence. subst af'. assert (a' = a) by exact (at_fun _ _ _ _ _ Ej Ea). subst a'.
      assert (q = p) by (eapply at2_fun; eauto). subst q. assert (r = a) by exact (at_fun _ _ _ _ _ Er Era). subst r.
      assert (Y3' := Y3). apply (in_acts acts n a h 0%Z Ca) in Y3'. destruct Y3' as (l & I & _).
      assert (G : forall item, In item acts -> a = fst item -> go_at stt d af h j b p a item).
      { intros item I' ->. apply (By item I'). exists 0%Z, o. split; [exact B|]. split; [eauto|]. split; [exact Y3|]. split; [exact Y5|]. left. auto. }
      apply B5; [intros item I' Of; apply G; [exact I'|]; exact (proj1 (Bo item I' Of))|].
      intro N. assert (X : In true ops2) by (apply B3; exists (a, l); split; [exact I|]; apply G; [exact I|reflexivity]). rewrite N in X. exact X.
  Qed.
End Step.
