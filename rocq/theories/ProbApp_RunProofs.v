(** * Proofs about appliances started at random: outcome and definedness of steps. *)

From Coq Require Import String List ZArith QArith Bool Arith Lia Lqa.
From Verif Require Import Prelude PreludeFacts SpecBase SpecBaseFacts Parse_Model Appliance_Model Appliance_Spec AppSetup_Model AppSetup_Spec ActApp_Model ActApp_Spec ProbApp_Model ProbApp_Spec.
From Verif Require Import Parse_GroupProofs Matrix_Proofs Appliance_Proofs Appliance_RunProofs Appliance_TypeProofs AppSetup_Proofs AppSetup_InitProofs ActApp_Proofs ProbApp_Proofs ProbApp_StepProofs.
Import ListNotations.
Local Open Scope nat_scope.

Lemma ticked_goes_on : forall v, goes_on v (ticked_view v).
Proof.
  intro v. unfold goes_on, ticked_view. simpl. split; [repeat split|]. unfold tick_left, tick_refresh, down_Q, down_Z. split.
  - destruct (Qltb 0 (v_left v)) eqn:E; [apply Qltb_lt in E|]; split; intro X; try lra; try reflexivity.
    assert (Y : Qltb 0 (v_left v) = true) by (apply Qltb_lt; exact X). congruence.
  - destruct (Z.ltb 0 (v_refresh v)); lia.
Qed.

Lemma ticked_fresh : forall v w, cyc (ticked_view v) w -> fresh_cycle v w.
Proof. intros v w (d & -> & A & B). unfold fresh_cycle. simpl in *. split; [repeat split|]. split; [reflexivity|]. auto. Qed.

Lemma ticked_halted : forall v w, w = off_view (ticked_view v) -> halted v w.
Proof. intros v w ->. unfold halted. simpl. split; [repeat split|]. split; reflexivity. Qed.

(** What counts as used, in terms of what is stored. *)
Lemma counted_iff : forall st h j v b, sees (p_base st) h j v -> current st ->
  (counted st h j b <-> b = v_own v && Qltb (match p_seen st with None => 1 | Some _ => 0 end) (v_left v)).
Proof.
  intros st h j v b Hv [E|E]; unfold counted; rewrite E.
  - rewrite (usage_at _ _ _ _ _ (base_step_sees _ _ _ _ Hv)). simpl v_left. simpl v_own.
    assert (X : Qltb 0 (tick_left (v_left v)) = Qltb 1 (v_left v)).
    { unfold tick_left. destruct (Qltb 0 (v_left v)) eqn:A; [apply Qltb_lt in A|].
      - destruct (Qltb 1 (v_left v)) eqn:B; [apply Qltb_lt in B; apply Qltb_lt; lra|].
        destruct (Qltb 0 (v_left v - 1)) eqn:C; [|reflexivity]. apply Qltb_lt in C. assert (Y : Qltb 1 (v_left v) = true) by (apply Qltb_lt; lra). congruence.
      - rewrite A. destruct (Qltb 1 (v_left v)) eqn:B; [|reflexivity]. apply Qltb_lt in B. assert (Y : Qltb 0 (v_left v) = true) by (apply Qltb_lt; lra). congruence. }
    rewrite X, andb_comm. tauto.
  - rewrite (usage_at _ _ _ _ _ Hv), andb_comm. tauto.
Qed.

Section Outcome.
  Variables (n : nat) (st : probsim) (af fo : list string) (f : nat) (d : pdraws) (acts : list (string * list Z)) (st' : probsim) (h j : nat) (v : view).
  Hypothesis W : wellformed n st af fo.
  Hypothesis O : one_follower fo f.
  Hypothesis Fd : fair d.
  Hypothesis Ca : counts_of n acts.
  Hypothesis H : prob_step st d acts = Ok st'.
  Hypothesis Hv : sees (p_base st) h j v.

  Lemma outcome_used : counted st h j true -> exists w, sees (p_base st') h j w /\
    (forced_to_stop st acts h j -> halted v w) /\ (~ forced_to_stop st acts h j -> goes_on v w).
  Proof.
    intro Hc. destruct (step_cell n st af fo f d acts st' W O Fd Ca H h j v true Hv Hc) as (ops & o1 & o2 & w & E & S & -> & A1 & A2 & A3 & A4 & A5).
    exists w. split; [exact S|]. assert (N1 : o1 = []). { destruct o1 as [|[|] o1]; [reflexivity| |]; exfalso; [destruct (proj1 A1 (or_introl eq_refl)); discriminate|apply A2; left; reflexivity]. }
    rewrite N1 in E. cbn [List.app] in E. assert (NT : ~ In true o2) by (intro X; apply A3 in X; destruct X; discriminate). split; intro F.
    - apply ticked_halted. apply (evolve_last _ _ _ E); [|apply last_false; exact NT]. intro X. apply A4 in F. rewrite X in F. exact F.
    - assert (X : o2 = []) by (destruct o2 as [|[|] o2]; [reflexivity|exfalso; apply NT; left; reflexivity|exfalso; apply F, A4; left; reflexivity]).
      rewrite X in E. simpl in E. subst w. apply ticked_goes_on.
  Qed.

  Lemma outcome_free : counted st h j false -> exists w, sees (p_base st') h j w /\
    (starts_by_activity st d acts h j -> fresh_cycle v w) /\
    (starts_after_activity st d acts h j -> ~ forced_to_stop st acts h j -> fresh_cycle v w) /\
    (starts_after_activity st d acts h j -> (exists a, at_ af j a /\ at_ (p_related st) j a) -> fresh_cycle v w) /\
    (starts_after_activity st d acts h j -> fresh_cycle v w \/ halted v w) /\
    (~ starts_by_activity st d acts h j -> ~ starts_after_activity st d acts h j ->
       (forced_to_stop st acts h j -> halted v w) /\
       (~ forced_to_stop st acts h j -> (starts_after_appliance st d h j -> fresh_cycle v w) /\ (~ starts_after_appliance st d h j -> goes_on v w))).
  Proof.
    intro Hc. destruct (step_cell n st af fo f d acts st' W O Fd Ca H h j v false Hv Hc) as (ops & o1 & o2 & w & E & S & -> & A1 & A2 & A3 & A4 & A5).
    exists w. split; [exact S|].
    assert (Ne : o2 <> [] -> List.app o1 o2 <> []) by (intros N X; destruct o1, o2; simpl in X; congruence).
    assert (Fr : o2 <> [] -> last o2 false = true -> fresh_cycle v w).
    { intros N L. apply ticked_fresh. apply (evolve_last _ _ _ E (Ne N)). rewrite last_app_r by exact N. exact L. }
    assert (Ha : o2 <> [] -> last o2 false = false -> halted v w).
    { intros N L. apply ticked_halted. apply (evolve_last _ _ _ E (Ne N)). rewrite last_app_r by exact N. exact L. }
    assert (Tr : In true o2 -> o2 <> []) by (intros X Y; rewrite Y in X; exact X).
    assert (By : starts_by_activity st d acts h j -> ~ forced_to_stop st acts h j).
    { intros (r & c & p & Y1 & Y2 & Y3 & _) (r' & a & Z1 & _ & _ & [Z4 _]). assert (r' = r) by (eapply at_fun; eauto). subst r'.
      pose proof (performs_fun _ _ _ _ _ Y3 Z4). lia. }
    repeat match goal with |- _ /\ _ => split end.
    - intro B. assert (T : In true o2) by (apply A3; auto). apply Fr; [auto|]. apply last_true; [auto|]. intro X. apply A4 in X. apply (By B X).
    - intros B N. assert (T : In true o2) by (apply A3; auto). apply Fr; [auto|]. apply last_true; [auto|]. intro X. apply A4 in X. contradiction.
    - intros B (a & Ea & Er). assert (T : In true o2) by (apply A3; auto). apply Fr; [auto|]. eapply A5; eauto.
    - intros B. assert (T : In true o2) by (apply A3; auto). destruct (last o2 false) eqn:L; [left; apply Fr; auto|right; apply Ha; auto].
    - intros N1 N2. assert (NT : ~ In true o2) by (intro X; apply A3 in X; tauto). split.
      + intro F. apply A4 in F. apply Ha; [intro X; rewrite X in F; exact F|]. apply last_false. exact NT.
      + intro F. assert (X : o2 = []) by (destruct o2 as [|[|] o2]; [reflexivity|exfalso; apply NT; left; reflexivity|exfalso; apply F, A4; left; reflexivity]).
        rewrite X, app_nil_r in E. split; intro B.
        * assert (T : In true o1) by (apply A1; auto). assert (N : o1 <> []) by (intro Y; rewrite Y in T; exact T). apply ticked_fresh. apply (evolve_last _ _ _ E N). apply last_true; auto.
        * assert (Y : o1 = []). { destruct o1 as [|[|] o1]; [reflexivity| |]; exfalso; [apply B; apply A1; left; reflexivity|apply A2; left; reflexivity]. }
          rewrite Y in E. simpl in E. subst w. apply ticked_goes_on.
  Qed.
End Outcome.

(** ** Definedness *)

Definition flows (s : asim) : Prop := forall j a, at_ (s_apps s) j a -> ap_water a = true -> ~ (ap_flow a == 0)%Q.

Lemma on_total : forall n s vol idx, simulates n s -> flows s -> (forall h j, In (h, j) idx -> h < n /\ j < length (s_apps s)) -> exists s', switch_on s vol idx = Ok s'.
Proof.
  intros n s vol idx S F Hin. unfold switch_on, switch_on_variable_loads, switch_on_constant_loads.
  match goal with |- exists st', bind (bind (mapM ?f ?l) _) _ = _ => destruct (mapM_total _ _ f l) as [ds M] end.
  { intros [h j] I. apply filter_In in I. destruct I as [I _]. destruct (Hin h j I) as [Lh Lj].
    destruct S as (_ & _ & _ & Sd & _). destruct (shaped_at2 _ _ _ _ h j Sd Lh Lj) as [x Ed]. apply mget_ok in Ed. simpl. rewrite Ed. cbn [bind]. eauto. }
  rewrite M. cbn [bind]. destruct (start_cycles_total _ n s _ ds S M) as [s1 Es].
  { intros h j I. apply filter_In in I. apply Hin. tauto. }
  rewrite Es. cbn [bind]. pose proof (start_cycles_data _ _ _ _ Es) as (Da & Do & Dd & Di & _).
  assert (S1 : simulates n s1). { destruct (start_cycles_ok _ _ _ _ _ M Es) as (X & _). apply X. exact S. }
  match goal with |- exists st', bind (mapM ?f ?l) _ = _ => destruct (mapM_total _ _ f l) as [d2 M2] end.
  { intros [h j] I. apply filter_In in I. destruct I as [I _]. destruct (Hin h j I) as [Lh Lj]. unfold sample_duration. rewrite Da.
    destruct (lt_at _ _ _ Lj) as [a Ea]. pose proof Ea as Ea'. apply vget_ok in Ea'. rewrite Ea'. cbn [bind].
    assert (X : exists x, (if ap_water a then water_duration a (vol h j) else Ok (ap_duration a)) = Ok x).
    { destruct (ap_water a) eqn:Ew; [|eauto]. unfold water_duration. destruct (Qeq_bool (ap_flow a) 0) eqn:Q; [|eauto]. apply Qeq_bool_iff in Q. exfalso. exact (F j a Ea Ew Q). }
    destruct X as [x ->]. cbn [bind]. destruct S1 as (_ & _ & _ & Sd & _). rewrite Da in Sd. destruct (shaped_at2 _ _ _ _ h j Sd Lh Lj) as [y Ed]. apply mget_ok in Ed. rewrite Ed. cbn [bind]. eauto. }
  rewrite M2. cbn [bind]. eapply start_cycles_total; [exact S1|exact M2|]. rewrite Da. intros h j I. apply filter_In in I. apply Hin. tauto.
Qed.

Lemma off_total : forall n s idx, simulates n s -> (forall h j, In (h, j) idx -> h < n /\ j < length (s_apps s)) -> exists s', prob_switch_off s idx = Ok s'.
Proof.
  intros n s idx (S1 & S2 & S3 & _) Hin. unfold prob_switch_off.
  destruct (mput_total _ (map (fun k => (k, 0%Q)) idx) (s_left s) n _ S2) as [left El].
  { intros h j x I. apply in_map_iff in I. destruct I as (k & Ek & I). injection Ek as -> _. auto. }
  rewrite El. cbn [bind]. destruct (mapM_total _ _ (fun k : nat * nat => bind (vget (s_apps s) (snd k)) (fun a => Ok (k, ap_delay a))) idx) as [rs M].
  { intros [h j] I. destruct (Hin h j I) as [_ Lj]. destruct (lt_at _ _ _ Lj) as [a Ea]. apply vget_ok in Ea. simpl. rewrite Ea. cbn [bind]. eauto. }
  rewrite M. cbn [bind]. destruct (mput_total _ rs (s_refresh s) n (length (s_apps s)) S3) as [rf Er]; [|rewrite Er; cbn [bind]; eauto].
  intros h j z I. destruct (mapM_at _ _ _ _ _ M) as [_ A]. apply in_at in I. destruct I as [q I]. apply A in I. destruct I as ([h' j'] & I & E). simpl in E.
  destruct (vget (s_apps s) j') as [a|]; [|discriminate]. cbn [bind] in E. injection E as -> -> _. apply Hin. eapply at_in. exact I.
Qed.

Lemma sampled_total : forall K (u : K -> Q) (prob : K -> result chance) l, (forall k, In k l -> exists p, prob k = Ok p) -> exists out, sampled u prob l = Ok out.
Proof. intros K u prob l Hl. unfold sampled. destruct (mapM_total _ _ prob l Hl) as [ps ->]. cbn [bind]. eauto. Qed.

(** The state keeps what a step needs. *)
Definition fit (n : nat) (st : probsim) (af : list string) : Prop :=
  simulates n (p_base st) /\ length (p_related st) = length (s_apps (p_base st)) /\ p_after st = Some af /\ length af = length (s_apps (p_base st)) /\
  shaped n (length (s_apps (p_base st))) (p_probs st) /\ shaped n (length (s_apps (p_base st))) (usage_read st) /\ flows (p_base st).

Lemma shaped_usage : forall n s, simulates n s -> shaped n (length (s_apps s)) (get_current_usage s).
Proof.
  intros n s (S1 & S2 & _). unfold get_current_usage. apply shaped_mmap2; [apply shaped_map; exact S2|exact S1].
Qed.

Lemma fit_same : forall n st st' af, fit n st af -> fixed st st' -> (p_seen st' = Some (usage_read st)) -> fit n st' af.
Proof.
  intros n st st' af (F1 & F2 & F3 & F4 & F5 & F6 & F7) (G1 & G2 & G3 & G4 & G5 & G6 & G7) Es. pose proof G1 as (Da & _).
  unfold fit, flows. rewrite Da, G3, G4, G6. unfold usage_read. rewrite Es. split; [auto|]. split; [exact F2|]. split; [exact F3|]. split; [exact F4|]. split; [exact F5|].
  split; [exact F6|exact F7].
Qed.

Lemma on_chosen : forall n st af idx vol, fit n st af -> (forall h j, In (h, j) idx -> h < n /\ j < length (s_apps (p_base st))) ->
  exists s, switch_on (p_base st) vol idx = Ok s.
Proof. intros n st af idx vol (F1 & _ & _ & _ & _ & _ & F7) Hin. eapply on_total; eauto. Qed.

Lemma prob_at : forall n st af h j, fit n st af -> h < n -> j < length (s_apps (p_base st)) ->
  exists b p, mget (usage_read st) h j = Ok b /\ mget (p_probs st) h j = Ok p.
Proof.
  intros n st af h j (F1 & _ & _ & _ & F5 & F6 & _) Lh Lj. destruct (shaped_at2 _ _ _ _ h j F6 Lh Lj) as [b Eb]. destruct (shaped_at2 _ _ _ _ h j F5 Lh Lj) as [p Ep].
  exists b, p. split; apply mget_ok; assumption.
Qed.

Lemma turn_total : forall n d st act now af, fair d -> fit n st af -> length now = n -> (exists U, p_seen st = Some U) ->
  (forall j, at_ (p_related st) j act -> exists before, dget String.eqb (p_prev st) act = Some before /\ length before = n) ->
  exists st', prob_turn d st (act, now) = Ok st' /\ fit n st' af /\ (exists U, p_seen st' = Some U) /\ fixed st st'.
Proof.
  intros n d st act now af Fd F Ln (U & Es) Hp. unfold prob_turn. destruct (existsb _ _) eqn:Ex; cbn [negb]; [|exists st; split; [reflexivity|split; [exact F|split; [eauto|apply fixed_refl]]]].
  apply some_mask in Ex. destruct Ex as [j Ej]. destruct (Hp j Ej) as (before & Eb & Lb). rewrite Eb. pose proof F as (F1 & F2 & F3 & F4 & F5 & F6 & F7).
  assert (Lo : length (s_own (p_base st)) = n) by (destruct F1 as ([L _] & _); exact L). rewrite Lb, Ln, Lo, Nat.eqb_refl. cbn [andb negb].
  set (stops := map2 _ before now). assert (Ls : length stops = n) by (unfold stops; rewrite map2_length; lia).
  assert (B : forall x m, length x = n -> length m <= length (s_apps (p_base st)) -> forall h j, In (h, j) (cross x m) -> h < n /\ j < length (s_apps (p_base st))).
  { intros x m Lx Lm h j' I. apply cross_in in I. destruct I as [I1 I2]. apply at_lt in I1, I2. lia. }
  destruct (off_total n (p_base st) (cross stops (map2 andb (map (String.eqb act) (p_related st)) (map ap_off (s_apps (p_base st))))) F1) as [s1 E1].
  { apply B; [exact Ls|]. rewrite map2_length, !map_length. lia. }
  rewrite E1. cbn [bind]. destruct (prob_off_ok _ _ _ E1) as (O1 & O2 & _).
  set (sa := with_base st s1). assert (Fa : fixed st sa) by (split; [exact O1|]; simpl; auto 10).
  assert (Ua : usage_read sa = usage_read st) by (unfold usage_read, sa; simpl; rewrite Es; reflexivity).
  assert (Fita : fit n sa af). { eapply fit_same; [exact F|exact Fa|]. unfold sa. simpl. rewrite Es. unfold usage_read. rewrite Es. reflexivity. }
  pose proof O1 as (Da & _).
  assert (XX : exists sb, after_step d act stops sa = Ok sb).
  { unfold after_step. change (p_after sa) with (p_after st). rewrite F3.
    match goal with |- exists sb, bind (sampled ?u ?pr ?l) _ = _ => destruct (sampled_total _ u pr l) as [chosen Ec] end.
    { intros [h j'] I. assert (Lj : h < n /\ j' < length (s_apps (p_base st))) by (apply (B _ _ Ls) in I; [exact I|rewrite map_length; lia]); destruct Lj as [Lh Lj]. rewrite <- Da in Lj. destruct (prob_at n sa af h j' Fita Lh Lj) as (b & p & X & Y).
      unfold one_time_prob. simpl fst. simpl snd. change (usage_read (look sa)) with (usage_read sa). change (p_probs (look sa)) with (p_probs sa). rewrite X, Y. cbn [bind]. eauto. }
    rewrite Ec. cbn [bind]. change (p_base (look sa)) with (p_base sa). destruct (on_chosen n sa af chosen (w_after d act) Fita) as [s2 E2].
    { intros h j' I. apply (sampled_in _ _ _ _ _ Ec) in I. destruct I as [I _]. simpl. rewrite Da. apply (B _ _ Ls) in I; [exact I|rewrite map_length; lia]. }
    rewrite E2. cbn [bind]. eauto. }
  destruct XX as [sb Eb2]. rewrite Eb2. cbn [bind]. destruct (after_ok _ _ _ _ _ _ Fd (F3 : p_after sa = Some af) Eb2) as (Fb & Sb & _).
  assert (Fitb : fit n sb af) by (eapply fit_same; eauto).
  assert (Fsb : fixed st sb) by (eapply fixed_trans; eauto). assert (Ab : s_apps (p_base sb) = s_apps (p_base st)) by (destruct Fsb as ((X & _) & _); exact X).
  assert (Rb : p_related sb = p_related st) by (destruct Fsb as (_ & _ & X & _); exact X).
  assert (YY : exists sc, activity_step d act (map (Z.ltb 0) now) sb = Ok sc).
  { unfold activity_step. rewrite Rb. assert (Lm : length (map (Z.ltb 0) now) = n) by (rewrite map_length; exact Ln).
    match goal with |- exists sb, bind (sampled ?u ?pr ?l) _ = _ => destruct (sampled_total _ u pr l) as [chosen Ec] end.
    { intros [h j'] I. assert (Lj : h < n /\ j' < length (s_apps (p_base st))) by (apply (B _ _ Lm) in I; [exact I|rewrite map_length; lia]); destruct Lj as [Lh Lj]. rewrite <- Ab in Lj. destruct (prob_at n sb af h j' Fitb Lh Lj) as (b & p & X & Y).
      unfold activity_start_prob. simpl fst. simpl snd. change (usage_read (look sb)) with (usage_read sb). change (p_probs (look sb)) with (p_probs sb). rewrite X, Y. cbn [bind]. eauto. }
    rewrite Ec. cbn [bind]. change (p_base (look sb)) with (p_base sb). destruct (on_chosen n sb af chosen (w_act d act) Fitb) as [s2 E2].
    { intros h j' I. apply (sampled_in _ _ _ _ _ Ec) in I. destruct I as [I _]. rewrite Ab. apply (B _ _ Lm) in I; [exact I|rewrite map_length; lia]. }
    rewrite E2. cbn [bind]. eauto. }
  destruct YY as [sc Ec]. destruct (activity_ok _ _ _ _ _ Fd Ec) as (Fc & Sc & _). exists sc. split; [exact Ec|]. split; [eapply fit_same; eauto|]. split; [eauto|]. eapply fixed_trans; eauto.
Qed.

Lemma fold_total : forall n d af acts st, fair d -> fit n st af -> (exists U, p_seen st = Some U) -> (forall act l, In (act, l) acts -> length l = n) ->
  (forall act j, mentions acts act -> at_ (p_related st) j act -> exists before, dget String.eqb (p_prev st) act = Some before /\ length before = n) ->
  exists st', fold_result (prob_turn d) acts st = Ok st'.
Proof.
  intros n d af acts. induction acts as [|[act now] acts IH]; intros st Fd F Es Hl Hp; [cbn; eauto|]. cbn [fold_result].
  destruct (turn_total n d st act now af Fd F) as (st1 & E & F1 & S1 & X).
  { apply (Hl act). left. reflexivity. } { exact Es. } { intros j Ej. apply (Hp act j); [left; reflexivity|exact Ej]. }
  rewrite E. cbn [bind]. apply IH; auto.
  - intros a l I. apply (Hl a l). right. exact I.
  - destruct X as (_ & _ & X1 & _ & _ & _ & X2). intros a j M Ej. rewrite X1 in Ej. rewrite X2. apply (Hp a j); [right; exact M|exact Ej].
Qed.

Lemma mentions_dget : forall n acts act, counts_of n acts -> mentions acts act -> exists l, dget String.eqb acts act = Some l /\ length l = n.
Proof.
  intros n acts act [_ L] M. unfold mentions in M. induction acts as [|[k x] acts IH]; [contradiction|]. cbn [dget]. destruct (String.eqb_spec act k) as [->|N].
  - exists x. split; [reflexivity|]. apply (L k x). left. reflexivity.
  - destruct M as [M|M]; [simpl in M; congruence|]. apply IH; [|exact M]. intros a l I. apply (L a l). right. exact I.
Qed.

Lemma step_defined : forall n st af fo f d acts, wellformed n st af fo -> flows (p_base st) -> (forall U, p_seen st = Some U -> shaped n (length (s_apps (p_base st))) U) -> one_follower fo f -> fair d -> counts_of n acts -> counts_of n (p_prev st) ->
  (forall act j, mentions acts act -> at_ (p_related st) j act -> mentions (p_prev st) act) -> exists st', prob_step st d acts = Ok st'.
Proof.
  intros n st af fo f d acts W Fl Hs O Fd Ca Cp Hm. pose proof W as (W1 & W2 & W3 & W4 & W5 & W6 & W7). unfold prob_step.
  set (base := update_iteration_variables (p_base st)). set (sa := with_base st base).
  assert (Sb : simulates n base) by (apply base_step_simulates; exact W1).
  assert (Fa : fit n sa af).
  { unfold fit. simpl. split; [exact Sb|]. split; [exact W2|]. split; [exact W3|]. split; [exact W4|]. split; [exact W7|]. split; [|exact Fl].
    unfold usage_read, sa. simpl. destruct (p_seen st) as [U|] eqn:E; [apply Hs; reflexivity|]. apply (shaped_usage n base Sb). }
  assert (XX : exists sb, follow_step d (where2 (ended_mask (p_base st))) sa = Ok sb).
  { unfold follow_step. change (p_follows sa) with (p_follows st). rewrite W5. destruct (lt_at _ fo f (proj1 O)) as [t Et].
    destruct (candidates_one fo (map ap_type (s_apps (p_base sa))) f t (where2 (ended_mask (p_base st))) O Et) as (cands & Ec & Ic).
    { intros h' i I. apply ended_in in I. destruct I as (l & I & _). rewrite map_length. simpl. destruct W1 as (_ & S2 & _). exact (proj2 (at2_shaped _ _ _ _ _ _ _ S2 I)). }
    rewrite Ec. cbn [bind].
    assert (B : forall c, In c cands -> fst (start_of c) < n /\ snd (start_of c) < length (s_apps (p_base sa))).
    { intros [[h i] k] I. apply Ic in I. destruct I as (-> & I & _). apply ended_in in I. destruct I as (l & I & _). unfold start_of. simpl. destruct W1 as (_ & S2 & _). pose proof (at2_shaped _ _ _ _ _ _ _ S2 I) as [X _].
      split; [exact X|]. pose proof (proj1 O). lia. }
    match goal with |- exists sb, bind (sampled ?u ?pr ?l) _ = _ => destruct (sampled_total _ u pr l) as [chosen Es] end.
    { intros c I. destruct (B c I) as [Lh Lj]. destruct (prob_at n sa af _ _ Fa Lh Lj) as (b & p & X & Y).
      unfold one_time_prob. change (usage_read (look sa)) with (usage_read sa). change (p_probs (look sa)) with (p_probs sa). rewrite X, Y. cbn [bind]. eauto. }
    rewrite Es. cbn [bind]. change (p_base (look sa)) with (p_base sa). destruct (on_chosen n sa af (map start_of chosen) (w_follow d) Fa) as [s2 E2].
    { intros h j I. apply in_map_iff in I. destruct I as (c & Ec' & I). apply (sampled_in _ _ _ _ _ Es) in I. destruct I as [I _]. specialize (B c I). rewrite Ec' in B. exact B. }
    rewrite E2. cbn [bind]. eauto. }
  destruct XX as [sb Eb]. rewrite Eb. cbn [bind].
  assert (Fb : fixed sa sb /\ p_seen sb = Some (usage_read sa)).
  { unfold follow_step in Eb. change (p_follows sa) with (p_follows st) in Eb. rewrite W5 in Eb. destruct (follow_candidates _ _ _); [|discriminate]. cbn [bind] in Eb.
    destruct (sampled _ _ _); [|discriminate]. cbn [bind] in Eb. destruct (switch_on _ _ _) as [s|] eqn:Eo; [|discriminate]. cbn [bind] in Eb. injection Eb as <-.
    destruct (on_ok _ _ _ _ Eo) as (D & S & _). split; [|reflexivity]. split; [exact D|]. simpl. auto 10. }
  destruct Fb as [Fb Sb']. destruct (fold_total n d af acts sb Fd) as [sc Ec].
  - eapply fit_same; eauto.
  - eauto.
  - intros act l I. apply (proj2 Ca act l I).
  - destruct Fb as (_ & _ & R & _ & _ & _ & P). intros act j M Ej. rewrite R in Ej. rewrite P. change (p_prev sa) with (p_prev st). apply (mentions_dget n); [exact Cp|]. eapply Hm; eauto.
  - rewrite Ec. cbn [bind]. eauto.
Qed.
