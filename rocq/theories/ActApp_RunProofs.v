(** * Proofs about runs of activity driven appliances. *)

From Coq Require Import String List ZArith QArith Bool Arith Lia Lqa.
From Verif Require Import Prelude PreludeFacts SpecBase SpecBaseFacts Parse_Model Appliance_Model Appliance_Spec AppSetup_Model AppSetup_Spec ActApp_Model ActApp_Spec.
From Verif Require Import Matrix_Proofs Appliance_Proofs Appliance_RunProofs Appliance_TypeProofs AppSetup_Proofs AppSetup_InitProofs ActApp_Proofs.
Import ListNotations.
Local Open Scope nat_scope.

(** ** The constructor *)

Lemma init_ok : forall n s related acts st, simulates n s -> length related = length (s_apps s) -> NoDup (map fst acts) ->
  init_activity s related acts = Ok st ->
  same_data s (a_base st) /\ a_related st = related /\ a_prev st = acts /\ formed n st /\
  forall h j v r, sees s h j v -> at_ related j r ->
    ((exists c, (0 < c)%Z /\ performs acts r h c) -> cell st h j (ticked (if ap_variable (v_app v) then restarted v else v)) true) /\
    (~ (exists c, (0 < c)%Z /\ performs acts r h c) -> cell st h j (ticked v) (always_on r)).
Proof.
  unfold init_activity. intros n s related acts st S Lr ND H. destruct (fold_result init_turn acts _) as [st1|] eqn:E; [|discriminate].
  cbn [bind] in H. injection H as <-. destruct (fold_init_ok _ _ _ ND E) as ((D & R & P) & F & C). simpl in D, R, P, C. cbn [a_base a_related a_prev].
  split; [eapply same_data_trans; [exact D|apply tick_data]|]. split; [reflexivity|]. split; [reflexivity|].
  assert (F0 : formed n (ActSim s related (map (map (fun _ => false)) (s_own s)) acts)).
  { split; [exact S|]. split; [simpl; apply shaped_map; apply S|exact Lr]. }
  destruct (F n F0) as (S1 & U1 & L1). pose proof D as (Da & _). split.
  { split; [simpl; apply tick_simulates; exact S1|]. simpl. split; [apply shaped_mrow; [exact U1|]; rewrite Da; exact Lr|rewrite Da; exact Lr]. }
  intros h j v r Hv Er.
  assert (C0 : cell (ActSim s related (map (map (fun _ => false)) (s_own s)) acts) h j v false).
  { split; [exact Hv|]. simpl. destruct Hv as (_ & V2 & _). apply at2_map. eauto. }
  destruct (C h j v false r C0 Er) as [A B]. split.
  - intro X. destruct (A X) as [X1 X2]. split; simpl; [apply tick_sees; exact X1|]. apply at2_mrow. exists true, r. auto.
  - intro X. destruct (B X) as [X1 X2]. split; simpl; [apply tick_sees; exact X1|]. apply at2_mrow. exists false, r. auto.
Qed.

Lemma fold_init_total : forall n acts st, formed n st -> (forall act l, In (act, l) acts -> length l = n) ->
  exists st', fold_result init_turn acts st = Ok st'.
Proof.
  intros n acts. induction acts as [|[act now] acts IH]; intros st F Hl; [cbn; eauto|]. cbn [fold_result].
  destruct (act_on_total n st (cross (map (Z.ltb 0) now) (map (String.eqb act) (a_related st))) F) as [st1 E].
  { intros h j I. apply cross_in in I. destruct I as [I1 I2]. apply at_lt in I1, I2. rewrite map_length in I1, I2.
    rewrite (Hl act now) in I1 by (left; reflexivity). destruct F as (_ & _ & L). lia. }
  unfold init_turn at 1. cbn [fst snd]. rewrite E. cbn [bind]. destruct (act_on_ok _ _ _ E) as (_ & F1 & _). apply IH; [auto|].
  intros a l I. apply (Hl a l). right. exact I.
Qed.

Lemma init_total : forall n s related acts, simulates n s -> length related = length (s_apps s) ->
  (forall act l, In (act, l) acts -> length l = n) -> exists st, init_activity s related acts = Ok st.
Proof.
  intros n s related acts S Lr Hl. unfold init_activity.
  destruct (fold_init_total n acts (ActSim s related (map (map (fun _ => false)) (s_own s)) acts)) as [st E]; [|exact Hl|rewrite E; cbn [bind]; eauto].
  split; [exact S|]. split; [simpl; apply shaped_map; apply S|exact Lr].
Qed.

(** ** Positions *)

Lemma qn_lt : forall a b, (qn a < qn b)%Q <-> a < b.
Proof. intros a b. unfold qn. rewrite <- Zlt_Qlt. lia. Qed.
Lemma qn_minus : forall a b, b <= a -> (qn (a - b) == qn a - qn b)%Q.
Proof. intros a b H. unfold qn. rewrite Nat2Z.inj_sub by exact H. unfold Zminus. rewrite inject_Z_plus, inject_Z_opp. reflexivity. Qed.
Lemma qn_0 : qn 0 = 0%Q. Proof. reflexivity. Qed.
Lemma qn_1 : (qn 1 == 1)%Q. Proof. reflexivity. Qed.

Lemma ticked_position : forall v i, ap_variable (v_app v) = true -> position v i -> position (ticked v) (S i mod v_dur v).
Proof.
  intros v i Va [Li E]. unfold position. unfold ticked. cbn [v_dur v_left recount].
  assert (P : (0 < v_left v)%Q) by (rewrite E; change 0%Q with (qn 0); apply qn_lt; lia).
  unfold reload. rewrite Va, andb_true_r. rewrite (proj2 (Qltb_lt 0 (v_left v)) P). cbn [andb].
  unfold tick_left. rewrite (proj2 (Qltb_lt 0 (v_left v)) P). fold (qn (v_dur v)).
  destruct (Nat.eq_dec (S i) (v_dur v)) as [Ei|Ni].
  - rewrite Ei, Nat.mod_same by lia. replace (v_dur v - i) with 1 in E by lia. rewrite qn_1 in E.
    destruct (Qltb 0 (v_left v - 1)) eqn:Q1; [apply Qltb_lt in Q1; lra|]. cbn [negb]. split; [lia|]. rewrite Nat.sub_0_r. lra.
  - rewrite Nat.mod_small by lia. rewrite qn_minus in E by lia.
    assert (G : (qn (S i) < qn (v_dur v))%Q) by (apply qn_lt; lia). pose proof (qn_S i) as QS.
    destruct (Qltb 0 (v_left v - 1)) eqn:Q1; [|apply Qltb_ge in Q1; lra]. cbn [negb]. split; [lia|]. rewrite qn_minus by lia. lra.
Qed.

Lemma restarted_position : forall v, 0 < v_dur v -> position (restarted v) 0.
Proof. intros v D. unfold position, restarted. cbn [v_dur v_left recount]. rewrite Nat.sub_0_r. split; [exact D|reflexivity]. Qed.

(** The time left of a variable appliance is at most the duration. *)
Lemma ticked_zero : forall v, (v_left v == 0)%Q -> (v_left (ticked v) == 0)%Q.
Proof.
  intros v E. unfold ticked, reload, tick_left. cbn [v_left recount]. destruct (Qltb 0 (v_left v)) eqn:Q1; [apply Qltb_lt in Q1; lra|exact E].
Qed.

Definition placed (v : view) : Prop := (v_left v == 0)%Q \/ exists i, position v i.

Lemma ticked_app : forall v, v_app (ticked v) = v_app v /\ v_own (ticked v) = v_own v /\ v_dur (ticked v) = v_dur v /\ v_id (ticked v) = v_id v.
Proof. intro v. unfold ticked. simpl. auto. Qed.
Lemma new_view_app : forall p c v, v_app (new_view p c v) = v_app v /\ v_own (new_view p c v) = v_own v /\ v_dur (new_view p c v) = v_dur v /\ v_id (new_view p c v) = v_id v.
Proof. intros p c v. unfold new_view, restarted. destruct (_ && _); simpl; auto. Qed.

Lemma ticked_placed : forall v, ap_variable (v_app v) = true -> placed v -> placed (ticked v).
Proof. intros v Va [Z|[i P]]; [left; apply ticked_zero; exact Z|right; eexists; apply ticked_position; eauto]. Qed.

(** ** Readings *)

Definition able (s : asim) (v : view) : Prop := 0 < v_dur v /\ exists profile, stored_profile s v profile /\ v_dur v <= length profile.

(** The invariant. *)
Definition in_order (st : actsim) : Prop := forall h j v b, cell st h j v b -> v_own v = true -> ap_variable (v_app v) = true ->
  able (a_base st) v /\ placed v /\ (b = true -> exists i, position v i).

Lemma position_left : forall v i, position v i -> (0 < v_left v /\ v_left v <= qn (v_dur v))%Q.
Proof.
  intros v i [Li E]. rewrite E. split; [change 0%Q with (qn 0); apply qn_lt; lia|]. apply qn_le. lia.
Qed.

Lemma able_same : forall s s' v w, s_loads s' = s_loads s -> v_app w = v_app v -> v_dur w = v_dur v -> v_id w = v_id v -> able s v -> able s' w.
Proof. unfold able, stored_profile. intros s s' v w E1 E2 E3 E4. rewrite E1, E2, E3, E4. auto. Qed.

Lemma step_back : forall n st st' h j w b, formed n st -> formed n st' -> s_apps (a_base st') = s_apps (a_base st) -> cell st' h j w b -> exists v b0 r, cell st h j v b0 /\ at_ (a_related st) j r.
Proof.
  intros n st st' h j w b F F' Ea Hc. destruct (cell_formed n _ _ _ _ _ F' Hc) as [Lh Lj]. rewrite Ea in Lj.
  destruct (formed_cell n st h j F Lh Lj) as (v & b0 & Hv). destruct F as (_ & _ & L).
  destruct (nth_error (a_related st) j) as [r|] eqn:Er; [|apply nth_error_None in Er; lia]. exists v, b0, r. auto.
Qed.

(** What a step does to a cell, in one statement. *)
Lemma step_cell : forall n st acts st' h j w b', formed n st -> NoDup (map fst acts) -> act_step st acts = Ok st' -> cell st' h j w b' ->
  exists v b r, cell st h j v b /\ at_ (a_related st) j r /\
    ((~ mentions acts r /\ w = ticked v /\ b' = b) \/
     (exists p c, performs (a_prev st) r h p /\ performs acts r h c /\ w = ticked (new_view p c v) /\ b' = new_used p c v b)).
Proof.
  intros n st acts st' h j w b' F ND H Hc. destruct (step_ok _ _ _ ND H) as (D & R & P & FF & C). pose proof D as (Da & _).
  destruct (step_back n st st' h j w b' F (FF n F) Da Hc) as (v & b & r & Hv & Er). exists v, b, r. split; [exact Hv|]. split; [exact Er|].
  destruct (C n h j v b r F Hv Er) as [A B]. destruct (in_dec string_dec r (map fst acts)) as [M|M].
  - right. destruct (B M) as (p & c & Pp & Pc & X). exists p, c. destruct (cell_fun _ _ _ _ _ _ _ Hc X). auto.
  - left. destruct (cell_fun _ _ _ _ _ _ _ Hc (A M)). auto.
Qed.

Lemma new_view_position : forall p c v b, ap_variable (v_app v) = true -> 0 < v_dur v -> (b = true -> exists i, position v i) ->
  new_used p c v b = true -> exists i, position (new_view p c v) i.
Proof.
  intros p c v b Va D B U. unfold new_view, new_used in *. rewrite Va, andb_true_r in *. destruct (starting p c); [exists 0; apply restarted_position; exact D|].
  destruct (stopping p c && ap_off (v_app v)); [discriminate|auto].
Qed.

Lemma new_view_placed : forall p c v, 0 < v_dur v -> placed v -> placed (new_view p c v).
Proof. intros p c v D P. unfold new_view. destruct (_ && _); [right; exists 0; apply restarted_position; exact D|exact P]. Qed.

Lemma step_in_order : forall n st acts st', formed n st -> NoDup (map fst acts) -> in_order st -> act_step st acts = Ok st' -> in_order st'.
Proof.
  intros n st acts st' F ND I H h j w b' Hc Ow Va. destruct (step_cell n st acts st' h j w b' F ND H Hc) as (v & b & r & Hv & Er & Ch).
  destruct (step_ok _ _ _ ND H) as ((_ & _ & _ & _ & Dl) & _). destruct Ch as [(_ & -> & ->)|(p & c & _ & _ & -> & ->)].
  - destruct (ticked_app v) as (T1 & T2 & T3 & T4). rewrite T1 in Va. rewrite T2 in Ow. destruct (I h j v b Hv Ow Va) as (A & B & C).
    split; [apply (able_same (a_base st) (a_base st') v); auto|]. split; [apply ticked_placed; auto|]. intro E. destruct (C E) as [i Pi].
    eexists. apply ticked_position; eauto.
  - destruct (ticked_app (new_view p c v)) as (T1 & T2 & T3 & T4). destruct (new_view_app p c v) as (N1 & N2 & N3 & N4).
    rewrite T1, N1 in Va. rewrite T2, N2 in Ow. destruct (I h j v b Hv Ow Va) as (A & B & C). pose proof A as [D _].
    split; [apply (able_same (a_base st) (a_base st') v); congruence|].
    split; [apply ticked_placed; [congruence|apply new_view_placed; auto]|]. intro E. destruct (new_view_position p c v b Va D C E) as [i Pi].
    eexists. apply ticked_position; [congruence|exact Pi].
Qed.

Lemma run_in_order : forall l n st st', formed n st -> (forall acts, In acts l -> NoDup (map fst acts)) -> in_order st -> act_run st l = Ok st' ->
  formed n st' /\ in_order st'.
Proof.
  induction l as [|acts l IH]; cbn [act_run]; intros n st st' F ND I H; [injection H as <-; auto|].
  destruct (act_step st acts) as [st1|] eqn:E; [|discriminate]. cbn [bind] in H.
  assert (N1 : NoDup (map fst acts)) by (apply ND; left; reflexivity).
  apply (IH n st1); auto; [apply (step_ok _ _ _ N1 E); exact F|intros a Ha; apply ND; right; exact Ha|eapply step_in_order; eauto].
Qed.

Lemma usage_shaped : forall n st, formed n st -> shaped n (length (s_apps (a_base st))) (act_usage st).
Proof. intros n st (S & U & _). unfold act_usage. apply shaped_mmap2; [exact U|apply S]. Qed.

Lemma usage_cell : forall st h j v b u, cell st h j v b -> (at2 (act_usage st) h j u <-> u = b && v_own v).
Proof.
  intros st h j v b u [(V1 & V2 & _) Hb]. unfold act_usage. rewrite at2_mmap2. split.
  - intros (x & y & X & Y & ->). rewrite (at2_fun _ _ _ _ _ _ X Hb), (at2_fun _ _ _ _ _ _ Y V2). reflexivity.
  - intros ->. eauto.
Qed.

Lemma reading_total : forall n st, formed n st -> in_order st -> exists P, act_power st = Ok P.
Proof.
  intros n st F I. unfold act_power. apply (power_of_total n); [apply F|apply usage_shaped; exact F|].
  intros h j v Hv U Va. destruct F as (S & SU & L). destruct Hv as (V1 & V2 & V3 & V4 & V5 & V6) eqn:EHv. clear EHv.
  destruct (at2_shaped _ _ _ _ _ _ _ (proj1 S) V2) as [Lh Lj]. destruct (shaped_at2 _ _ _ _ h j SU Lh Lj) as [b Hb].
  assert (Hc : cell st h j v b) by (split; [exact Hv|exact Hb]). apply (usage_cell _ _ _ _ _ _ Hc) in U. symmetry in U. apply andb_true_iff in U. destruct U as [-> Ow].
  destruct (I h j v true Hc Ow Va) as ((D & profile & (profiles & P1 & P2) & P3) & _ & Pos). destruct (Pos eq_refl) as [i Pi].
  destruct (position_left v i Pi) as [L1 L2]. exact (load_value_total _ h j v profiles profile Hv L1 L2 P1 P2 P3).
Qed.

Lemma reading_position : forall st P h j v i, cell st h j v true -> v_own v = true -> ap_variable (v_app v) = true -> position v i ->
  act_power st = Ok P -> exists profile x p, stored_profile (a_base st) v profile /\ at_ profile i x /\ at2 P h j p /\ (p == x)%Q.
Proof.
  intros st P h j v i Hc Ow Va Pi H. destruct (power_of_at (a_base st) (act_usage st) P h j v true H (proj1 Hc)) as (p & Hp & _ & _ & Pv).
  { apply (usage_cell _ _ _ _ _ _ Hc). rewrite Ow. reflexivity. }
  destruct (Pv eq_refl Va) as (q & Eq & Ep). destruct (position_left v i Pi) as [L1 L2].
  destruct (load_value_spec _ h j v q (proj1 Hc) Eq L1 L2) as (profiles & profile & z & P1 & P2 & Z1 & Z2 & Z3).
  destruct Pi as [Li El]. rewrite El in Z1, Z2. rewrite qn_minus in Z1, Z2 by lia.
  assert (z = i).
  { assert (A : (qn z <= qn i)%Q) by (unfold qn at 1; lra). assert (B : (qn i < qn (S z))%Q) by (rewrite qn_S; unfold qn at 2; lra).
    apply qn_lt in B. unfold qn in A. rewrite <- Zle_Qle in A. lia. }
  subst z. exists profile, q, p. split; [exists profiles; auto|auto].
Qed.

(** ** Positions along a run *)

Lemma run_position : forall l n st st' h j v b r i, formed n st -> (forall acts, In acts l -> counts_of n acts) -> counts_of n (a_prev st) ->
  cell st h j v b -> at_ (a_related st) j r -> ap_variable (v_app v) = true -> position v i -> no_begin (a_prev st) l r h -> act_run st l = Ok st' ->
  exists w b', cell st' h j w b' /\ same_static v w /\ position w ((i + length l) mod v_dur v) /\ s_loads (a_base st') = s_loads (a_base st).
Proof.
  induction l as [|acts l IH]; cbn [act_run no_begin]; intros n st st' h j v b r i F Hl Hp Hc Er Va Pi NB H.
  { injection H as <-. exists v, b. cbn [length]. rewrite Nat.add_0_r. pose proof Pi as [Li _]. rewrite Nat.mod_small by exact Li.
    split; [exact Hc|]. split; [unfold same_static; auto|]. split; [exact Pi|reflexivity]. }
  destruct NB as [NB NBt]. destruct (act_step st acts) as [st1|] eqn:E; [|discriminate]. cbn [bind] in H.
  assert (C1 : counts_of n acts) by (apply Hl; left; reflexivity). pose proof C1 as [ND _].
  destruct (step_ok _ _ _ ND E) as ((_ & _ & _ & _ & Dl) & R & P & FF & C). destruct (C n h j v b r F Hc Er) as [A B].
  assert (X : exists b1, cell st1 h j (ticked v) b1).
  { destruct (in_dec string_dec r (map fst acts)) as [M|M]; [|eauto]. destruct (B M) as (p & c & Pp & Pc & Y). unfold new_view in Y.
    assert (Sf : starting p c = false).
    { unfold starting. destruct (Z.eqb_spec p c) as [|N]; [reflexivity|]. destruct (Z.eqb_spec p 0) as [->|]; [|reflexivity]. exfalso. apply NB. split; [exact Pp|].
      exists c. split; [|exact Pc]. destruct Pc as (l0 & Dl0 & Ac). assert (In (r, l0) acts).
      { clear -Dl0. induction acts as [|[k x] t IH]; cbn [dget] in Dl0; [discriminate|]. destruct (String.eqb_spec r k) as [->|]; [left; congruence|right; auto]. }
      destruct (proj2 C1 r l0 H0) as [_ Fo]. rewrite Forall_forall in Fo. specialize (Fo c (at_in _ _ _ _ Ac)). lia. }
    rewrite Sf in Y. cbn [andb] in Y. eauto. }
  destruct X as [b1 Hc1]. destruct (ticked_app v) as (T1 & T2 & T3 & T4). pose proof (ticked_position v i Va Pi) as P1.
  destruct (IH n st1 st' h j (ticked v) b1 r (S i mod v_dur v)) as (w & b' & W1 & W2 & W3 & W4); auto.
  - intros a Ha. apply Hl. right. exact Ha.
  - rewrite P. exact C1.
  - rewrite R. exact Er.
  - rewrite P. exact NBt.
  - exists w, b'. split; [exact W1|]. split; [unfold same_static in *; rewrite T1, T2, T3, T4 in W2; exact W2|]. rewrite T3 in W3. split; [|congruence].
    destruct Pi as [Li _]. rewrite Nat.add_mod_idemp_l in W3 by lia. cbn [length]. replace (i + S (length l)) with (S i + length l) by lia. exact W3.
Qed.

(** ** Usage along a run *)

Lemma counts_nonneg : forall n acts act h c, counts_of n acts -> performs acts act h c -> (0 <= c)%Z.
Proof.
  intros n acts act h c [_ C] (l & D & A). assert (In (act, l) acts).
  { clear -D. induction acts as [|[k x] t IH]; cbn [dget] in D; [discriminate|]. destruct (String.eqb_spec act k) as [->|]; [left; congruence|right; auto]. }
  destruct (C act l H) as [_ F]. rewrite Forall_forall in F. exact (F c (at_in _ _ _ _ A)).
Qed.

Lemma new_used_off : forall p c v b, (0 <= p)%Z -> (0 <= c)%Z -> ap_off (v_app v) = true -> b = Z.ltb 0 p -> new_used p c v b = Z.ltb 0 c.
Proof.
  intros p c v b Hp Hc Of ->. unfold new_used, starting, stopping. rewrite Of, andb_true_r.
  destruct (Z.eqb_spec p c) as [->|]; cbn [negb andb]; [reflexivity|]. destruct (Z.eqb_spec p 0) as [->|]; [symmetry; apply Z.ltb_lt; lia|].
  destruct (Z.eqb_spec c 0) as [->|]; [reflexivity|]. transitivity true; [|symmetry]; apply Z.ltb_lt; lia.
Qed.

Definition follows_now (st : actsim) : Prop := forall h j v b r c, cell st h j v b -> at_ (a_related st) j r -> ap_off (v_app v) = true -> ~ whole_day r ->
  performs (a_prev st) r h c -> b = Z.ltb 0 c.

Lemma step_follows : forall n st acts st', formed n st -> counts_of n (a_prev st) -> counts_of n acts -> follows_now st -> act_step st acts = Ok st' -> follows_now st'.
Proof.
  intros n st acts st' F Cp Ca I H h j w b' r c Hc Er Of NW Pc. pose proof Ca as [ND _]. destruct (step_ok _ _ _ ND H) as (_ & R & P & _).
  rewrite R in Er. rewrite P in Pc. destruct (step_cell n st acts st' h j w b' F ND H Hc) as (v & b & r' & Hv & Er' & Ch).
  assert (r' = r) by (unfold at_ in *; congruence). subst r'. destruct Ch as [(M & _)|(p & c' & Pp & Pc' & -> & ->)].
  - exfalso. apply M. destruct Pc as (l & D & _). exact (dget_mentions _ _ _ D).
  - rewrite (performs_fun _ _ _ _ _ Pc Pc'). destruct (ticked_app (new_view p c' v)) as (T1 & _). destruct (new_view_app p c' v) as (N1 & _). rewrite T1, N1 in Of.
    apply new_used_off; [exact (counts_nonneg _ _ _ _ _ Cp Pp)|exact (counts_nonneg _ _ _ _ _ Ca Pc')|exact Of|]. exact (I h j v b r p Hv Er Of NW Pp).
Qed.

(** Dictionaries given so far. *)
Definition sticks (hist : list (list (string * list Z))) (st : actsim) : Prop := forall h j v b r, cell st h j v b -> at_ (a_related st) j r ->
  ap_off (v_app v) = false -> ~ whole_day r -> (b = true <-> exists acts c, In acts hist /\ (0 < c)%Z /\ performs acts r h c).

Lemma step_sticks : forall n hist st acts st', formed n st -> In (a_prev st) hist -> counts_of n (a_prev st) -> counts_of n acts -> sticks hist st ->
  act_step st acts = Ok st' -> sticks (acts :: hist) st'.
Proof.
  intros n hist st acts st' F Ip Cp Ca I H h j w b' r Hc Er Of NW. pose proof Ca as [ND _]. destruct (step_ok _ _ _ ND H) as (_ & R & P & _).
  rewrite R in Er. destruct (step_cell n st acts st' h j w b' F ND H Hc) as (v & b & r' & Hv & Er' & Ch).
  assert (r' = r) by (unfold at_ in *; congruence). subst r'. destruct Ch as [(M & -> & ->)|(p & c & Pp & Pc & -> & ->)].
  - destruct (ticked_app v) as (T1 & _). rewrite T1 in Of. rewrite (I h j v b r Hv Er Of NW). split; intros (a & c & Ia & C & Pa).
    + exists a, c. split; [right; exact Ia|auto].
    + destruct Ia as [->|Ia]; [|eauto]. exfalso. apply M. destruct Pa as (l & D & _). exact (dget_mentions _ _ _ D).
  - destruct (ticked_app (new_view p c v)) as (T1 & _). destruct (new_view_app p c v) as (N1 & _). rewrite T1, N1 in Of.
    specialize (I h j v b r Hv Er Of NW). pose proof (counts_nonneg _ _ _ _ _ Cp Pp) as Hp. pose proof (counts_nonneg _ _ _ _ _ Ca Pc) as Hc0.
    unfold new_used. rewrite Of, andb_false_r. destruct (starting p c) eqn:Es.
    + split; [|reflexivity]. intros _. exists acts, c. split; [left; reflexivity|]. split; [|exact Pc]. unfold starting in Es.
      destruct (Z.eqb_spec p c); [discriminate|]. destruct (Z.eqb_spec p 0); [lia|discriminate].
    + rewrite I. split; intros (a & c0 & Ia & C & Pa); [exists a, c0; split; [right; exact Ia|auto]|].
      destruct Ia as [->|Ia]; [|eauto]. rewrite <- (performs_fun _ _ _ _ _ Pc Pa) in C. exists (a_prev st), p. split; [exact Ip|]. split; [|exact Pp].
      unfold starting in Es. destruct (Z.eqb_spec p c); [lia|]. destruct (Z.eqb_spec p 0); [discriminate|lia].
Qed.

Definition stays_on (st : actsim) : Prop := forall h j v b r, cell st h j v b -> at_ (a_related st) j r -> whole_day r -> b = true.

Lemma step_stays : forall n st acts st', formed n st -> NoDup (map fst acts) -> (forall r, whole_day r -> ~ mentions acts r) -> stays_on st ->
  act_step st acts = Ok st' -> stays_on st'.
Proof.
  intros n st acts st' F ND NM I H h j w b' r Hc Er W. destruct (step_ok _ _ _ ND H) as (_ & R & P & _).
  rewrite R in Er. destruct (step_cell n st acts st' h j w b' F ND H Hc) as (v & b & r' & Hv & Er' & Ch).
  assert (r' = r) by (unfold at_ in *; congruence). subst r'. destruct Ch as [(_ & _ & ->)|(p & c & _ & (l & D & _) & _)]; [exact (I h j v b r Hv Er W)|].
  exfalso. apply (NM r W). exact (dget_mentions _ _ _ D).
Qed.

(** ** From the constructor *)

Section From.
  Variables (n : nat) (s : asim) (related : list string) (acts : list (string * list Z)) (st : actsim).
  Hypothesis S : simulates n s.
  Hypothesis Lr : length related = length (s_apps s).
  Hypothesis Ca : counts_of n acts.
  Hypothesis H : init_activity s related acts = Ok st.

  Lemma init_cell : forall h j w b, cell st h j w b -> exists v r, sees s h j v /\ at_ related j r /\
    (((exists c, (0 < c)%Z /\ performs acts r h c) /\ w = ticked (if ap_variable (v_app v) then restarted v else v) /\ b = true) \/
     (~ (exists c, (0 < c)%Z /\ performs acts r h c) /\ w = ticked v /\ b = always_on r)).
  Proof.
    intros h j w b Hc. destruct (init_ok n s related acts st S Lr (proj1 Ca) H) as ((Da & _) & R & P & F & C).
    destruct (cell_formed n _ _ _ _ _ F Hc) as [Lh Lj]. rewrite Da in Lj. destruct (simulates_sees n s h j S Lh Lj) as [v Hv].
    destruct (nth_error related j) as [r|] eqn:Er; [|apply nth_error_None in Er; lia]. exists v, r. split; [exact Hv|]. split; [exact Er|].
    destruct (C h j v r Hv Er) as [A B].
    assert (Dec : (exists c, (0 < c)%Z /\ performs acts r h c) \/ ~ (exists c, (0 < c)%Z /\ performs acts r h c)).
    { unfold performs. destruct (dget String.eqb acts r) as [l|] eqn:E; [|right; intros (c & _ & l & X & _); discriminate].
      destruct (nth_error l h) as [c|] eqn:Eh; [|right; intros (c & _ & l' & X & Y); unfold at_ in Y; congruence].
      destruct (Z.ltb_spec 0 c) as [L|L]; [left; exists c; split; [exact L|exists l; auto]|]. right. intros (c' & L' & l' & X & Y). unfold at_ in Y.
      replace l' with l in Y by congruence. replace c' with c in L' by congruence. lia. }
    destruct Dec as [X|X]; [left; destruct (cell_fun _ _ _ _ _ _ _ Hc (A X))|right; destruct (cell_fun _ _ _ _ _ _ _ Hc (B X))]; auto.
  Qed.

  Lemma init_follows : follows_now st.
  Proof.
    destruct (init_ok n s related acts st S Lr (proj1 Ca) H) as (_ & R & P & _). intros h j w b r c Hc Er Of NW Pc. rewrite R in Er. rewrite P in Pc.
    destruct (init_cell h j w b Hc) as (v & r' & Hv & Er' & Ch). assert (r' = r) by (unfold at_ in *; congruence). subst r'.
    destruct Ch as [((c' & L & Pc') & _ & ->)|(N & _ & ->)].
    - rewrite (performs_fun _ _ _ _ _ Pc Pc'). symmetry. apply Z.ltb_lt. exact L.
    - destruct (Z.ltb_spec 0 c); [exfalso; apply N; eauto|]. destruct (always_on r) eqn:A; [|reflexivity]. apply always_on_spec in A. contradiction.
  Qed.

  Lemma init_sticks : sticks [acts] st.
  Proof.
    destruct (init_ok n s related acts st S Lr (proj1 Ca) H) as (_ & R & P & _). intros h j w b r Hc Er Of NW. rewrite R in Er.
    destruct (init_cell h j w b Hc) as (v & r' & Hv & Er' & Ch). assert (r' = r) by (unfold at_ in *; congruence). subst r'.
    destruct Ch as [((c' & L & Pc') & _ & ->)|(N & _ & ->)].
    - split; [|reflexivity]. intros _. exists acts, c'. split; [left; reflexivity|auto].
    - split; [intro A; apply always_on_spec in A; contradiction|]. intros (a & c & [<-|[]] & L & Pa). exfalso. apply N. eauto.
  Qed.

  Lemma init_stays : stays_on st.
  Proof.
    destruct (init_ok n s related acts st S Lr (proj1 Ca) H) as (_ & R & P & _). intros h j w b r Hc Er W. rewrite R in Er.
    destruct (init_cell h j w b Hc) as (v & r' & Hv & Er' & Ch). assert (r' = r) by (unfold at_ in *; congruence). subst r'.
    destruct Ch as [(_ & _ & ->)|(_ & _ & ->)]; [reflexivity|]. apply always_on_spec. exact W.
  Qed.

  Lemma init_in_order : (forall h j v r, sees s h j v -> at_ related j r -> v_own v = true -> ap_variable (v_app v) = true ->
      able s v /\ placed v /\ (whole_day r -> exists i, position v i)) -> in_order st.
  Proof.
    intros A h j w b Hc Ow Va. destruct (init_ok n s related acts st S Lr (proj1 Ca) H) as ((_ & _ & _ & _ & Dl) & _).
    destruct (init_cell h j w b Hc) as (v & r & Hv & Er & Ch). destruct Ch as [(_ & -> & ->)|(_ & -> & ->)].
    - destruct (ticked_app (if ap_variable (v_app v) then restarted v else v)) as (T1 & T2 & T3 & T4).
      assert (Va' : ap_variable (v_app v) = true). { rewrite T1 in Va. destruct (ap_variable (v_app v)) eqn:E; [reflexivity|congruence]. }
      rewrite Va' in *. destruct (A h j v r Hv Er) as (B & _ & _); [exact Ow|exact Va'|]. pose proof B as [D _].
      assert (Ps : exists i, position (ticked (restarted v)) i) by (eexists; apply ticked_position; [exact Va'|apply restarted_position; exact D]).
      split; [apply (able_same s (a_base st) v); auto|]. split; [right; exact Ps|auto].
    - destruct (ticked_app v) as (T1 & T2 & T3 & T4). rewrite T1 in Va. rewrite T2 in Ow. destruct (A h j v r Hv Er Ow Va) as (B & C & D).
      split; [apply (able_same s (a_base st) v); auto|]. split; [apply ticked_placed; auto|]. intro E. apply always_on_spec in E. destruct (D E) as [i Pi].
      eexists. apply ticked_position; eauto.
  Qed.
End From.

Lemma last_cons : forall (A : Type) (l : list A) a d, last (a :: l) d = last l a.
Proof. induction l as [|x l IH]; intros a d; [reflexivity|]. change (last (x :: l) d = last (x :: l) a). rewrite !IH. reflexivity. Qed.

(** All the invariants along a run. *)
Lemma run_invariant : forall (Inv : list (list (string * list Z)) -> actsim -> Prop) (Good : list (string * list Z) -> Prop) n,
  (forall hist st acts st', formed n st -> In (a_prev st) hist -> counts_of n (a_prev st) -> counts_of n acts -> Good acts -> Inv hist st -> act_step st acts = Ok st' -> Inv (acts :: hist) st') ->
  forall l hist st st', formed n st -> In (a_prev st) hist -> counts_of n (a_prev st) -> (forall a, In a l -> counts_of n a /\ Good a) -> Inv hist st ->
  act_run st l = Ok st' -> formed n st' /\ a_prev st' = last l (a_prev st) /\ a_related st' = a_related st /\ same_data (a_base st) (a_base st') /\ Inv (List.app (rev l) hist) st'.
Proof.
  intros Inv Good n Hstep. induction l as [|acts l IH]; cbn [act_run]; intros hist st st' F Ip Cp Cl I H.
  { injection H as <-. split; [exact F|]. split; [reflexivity|]. split; [reflexivity|]. split; [apply same_data_refl|exact I]. }
  destruct (act_step st acts) as [st1|] eqn:E; [|discriminate]. cbn [bind] in H. destruct (Cl acts (or_introl eq_refl)) as [Ca Ga].
  destruct (step_ok _ _ _ (proj1 Ca) E) as (D & R & P & FF & _).
  destruct (IH (acts :: hist) st1 st') as (A1 & A2 & A3 & A4 & A5); auto.
  - rewrite P. left. reflexivity.
  - rewrite P. exact Ca.
  - intros a Ha. apply Cl. right. exact Ha.
  - eapply Hstep; eauto.
  - split; [exact A1|]. split; [rewrite last_cons, A2, P; reflexivity|]. split; [congruence|]. split; [eapply same_data_trans; eauto|].
    cbn [rev]. rewrite <- app_assoc. exact A5.
Qed.

(** ** The statements *)

Lemma built_parts : forall n apps related own algo sw fu p1 p2 start wait acts0 st0, built n apps related own algo sw fu p1 p2 start wait acts0 st0 ->
  exists s, make_appliances apps related own algo sw fu p1 p2 start wait = Ok s /\ init_activity s related acts0 = Ok st0 /\ simulates n s /\
    length related = length (s_apps s) /\ s_own s = own /\ formed n st0 /\ a_related st0 = related /\ a_prev st0 = acts0 /\ same_data s (a_base st0) /\
    (forall j a a0, at_ apps j a0 -> at_ (s_apps s) j a -> ap_off a = ap_off a0).
Proof.
  intros n apps related own algo sw fu p1 p2 start wait acts0 st0 (Lr & So & Ca & H). unfold make_activity in H.
  destruct (make_appliances apps related own algo sw fu p1 p2 start wait) as [s|] eqn:E; [|discriminate]. cbn [bind] in H. exists s.
  destruct (parent_left apps related own algo sw fu p1 p2 start wait n Lr So s E) as (Sim & _).
  destruct (make_ok _ apps related own algo sw fu p1 p2 wait n Lr So s E) as (L & left & _ & _ & LA & Eo & _).
  assert (Lr' : length related = length (s_apps s)) by congruence.
  destruct (init_ok n s related acts0 st0 Sim Lr' (proj1 Ca) H) as (D & R & P & F & _).
  repeat (split; [first [reflexivity|assumption]|]).
  intros j a a0 Ea0 Ea. unfold make_appliances, make_with in E. destruct (sample_real_load_profiles _ _ _ _ _ _ _ _) as [L'|]; [|discriminate]. cbn [bind] in E.
  destruct (initial_left _ _ _) as [l'|]; [|discriminate]. cbn [bind] in E. injection E as <-. cbn [s_apps] in Ea. apply at_map2 in Ea.
  destruct Ea as (a1 & b & Ea1 & _ & ->). unfold at_ in *. replace a1 with a0 by congruence. reflexivity.
Qed.

Lemma own_cell : forall n st h j o, formed n st -> at2 (s_own (a_base st)) h j o -> exists v b, cell st h j v b /\ v_own v = o.
Proof.
  intros n st h j o F Eo. destruct (at2_shaped _ _ _ _ _ _ _ (proj1 (proj1 F)) Eo) as [Lh Lj]. destruct (formed_cell n st h j F Lh Lj) as (v & b & Hc).
  exists v, b. split; [exact Hc|]. destruct Hc as [(_ & V2 & _) _]. exact (at2_fun _ _ _ _ _ _ V2 Eo).
Qed.

Lemma usage_follows : forall n apps related own algo sw fu p1 p2 start wait acts0 st0 l st,
  built n apps related own algo sw fu p1 p2 start wait acts0 st0 -> (forall acts, In acts l -> counts_of n acts) -> act_run st0 l = Ok st ->
  forall h j a r o c, at_ apps j a -> at_ related j r -> ap_off a = true -> ~ whole_day r -> at2 own h j o -> performs (last l acts0) r h c ->
    (at2 (act_usage st) h j true <-> o = true /\ (0 < c)%Z).
Proof.
  intros n apps related own algo sw fu p1 p2 start wait acts0 st0 l st B Cl H h j a r o c Ea Er Of NW Eo Pc.
  destruct (built_parts _ _ _ _ _ _ _ _ _ _ _ _ _ B) as (s & _ & Hi & Sim & Lr & Own & F & R & P & D & Off). destruct B as (_ & _ & Ca & _).
  destruct (run_invariant (fun _ => follows_now) (fun _ => True) n) with (l := l) (hist := [a_prev st0]) (st := st0) (st' := st) as (F' & P' & R' & D' & I'); auto.
  - intros. eapply step_follows; eauto.
  - left. reflexivity.
  - rewrite P. exact Ca.
  - eapply init_follows; eauto.
  - destruct D as (Da & Do & _). destruct D' as (Da' & Do' & _). rewrite <- Own, <- Do, <- Do' in Eo. destruct (own_cell n st h j o F' Eo) as (v & b & Hc & Ov).
    rewrite (usage_cell _ _ _ _ _ true Hc), Ov.
    assert (Ov' : ap_off (v_app v) = true). { rewrite <- Of. apply (Off j); [exact Ea|]. rewrite <- Da, <- Da'. apply Hc. }
    rewrite <- R, <- R' in Er. rewrite <- P, <- P' in Pc. rewrite (I' h j v b r c Hc Er Ov' NW Pc). split.
    + intro E. symmetry in E. apply andb_true_iff in E. destruct E as [E1 E2]. apply Z.ltb_lt in E1. auto.
    + intros [-> L]. apply Z.ltb_lt in L. rewrite L. reflexivity.
Qed.

Lemma usage_sticks : forall n apps related own algo sw fu p1 p2 start wait acts0 st0 l st,
  built n apps related own algo sw fu p1 p2 start wait acts0 st0 -> (forall acts, In acts l -> counts_of n acts) -> act_run st0 l = Ok st ->
  forall h j a r o, at_ apps j a -> at_ related j r -> ap_off a = false -> ~ whole_day r -> at2 own h j o ->
    (at2 (act_usage st) h j true <-> o = true /\ exists acts c, In acts (acts0 :: l) /\ (0 < c)%Z /\ performs acts r h c).
Proof.
  intros n apps related own algo sw fu p1 p2 start wait acts0 st0 l st B Cl H h j a r o Ea Er Of NW Eo.
  destruct (built_parts _ _ _ _ _ _ _ _ _ _ _ _ _ B) as (s & _ & Hi & Sim & Lr & Own & F & R & P & D & Off). destruct B as (_ & _ & Ca & _).
  destruct (run_invariant sticks (fun _ => True) n) with (l := l) (hist := [acts0]) (st := st0) (st' := st) as (F' & P' & R' & D' & I'); auto.
  - intros. eapply step_sticks; eauto.
  - left. auto.
  - rewrite P. exact Ca.
  - eapply init_sticks; eauto.
  - destruct D as (Da & Do & _). destruct D' as (Da' & Do' & _). rewrite <- Own, <- Do, <- Do' in Eo. destruct (own_cell n st h j o F' Eo) as (v & b & Hc & Ov).
    rewrite (usage_cell _ _ _ _ _ true Hc), Ov.
    assert (Ov' : ap_off (v_app v) = false). { rewrite <- Of. apply (Off j); [exact Ea|]. rewrite <- Da, <- Da'. apply Hc. }
    rewrite <- R, <- R' in Er. pose proof (I' h j v b r Hc Er Ov' NW) as I.
    assert (X : (exists acts c, In acts (acts0 :: l) /\ (0 < c)%Z /\ performs acts r h c) <-> b = true).
    { rewrite I. split; intros (acts & c & Ia & Z); exists acts, c; (split; [|exact Z]).
      - apply in_or_app. rewrite <- in_rev. destruct Ia as [->|Ia]; [right; left; reflexivity|left; exact Ia].
      - apply in_app_or in Ia. rewrite <- in_rev in Ia. destruct Ia as [Ia|[->|[]]]; [right; exact Ia|left; reflexivity]. }
    rewrite X. split; [intro E; symmetry in E; apply andb_true_iff in E; tauto|intros [-> ->]; reflexivity].
Qed.

Lemma usage_whole_day : forall n apps related own algo sw fu p1 p2 start wait acts0 st0 l st,
  built n apps related own algo sw fu p1 p2 start wait acts0 st0 -> (forall acts, In acts l -> counts_of n acts) -> act_run st0 l = Ok st ->
  (forall acts r, In acts l -> whole_day r -> ~ mentions acts r) ->
  forall h j r o, at_ related j r -> whole_day r -> at2 own h j o -> at2 (act_usage st) h j o.
Proof.
  intros n apps related own algo sw fu p1 p2 start wait acts0 st0 l st B Cl H NM h j r o Er W Eo.
  destruct (built_parts _ _ _ _ _ _ _ _ _ _ _ _ _ B) as (s & _ & Hi & Sim & Lr & Own & F & R & P & D & Off). destruct B as (_ & _ & Ca & _).
  destruct (run_invariant (fun _ => stays_on) (fun a => forall r, whole_day r -> ~ mentions a r) n) with (l := l) (hist := [a_prev st0]) (st := st0) (st' := st) as (F' & P' & R' & D' & I'); auto.
  - intros hist st1 acts st2 F1 _ _ C1 G1 I1 E1. eapply step_stays; eauto. apply C1.
  - left. reflexivity.
  - rewrite P. exact Ca.
  - eapply init_stays; eauto.
  - destruct D as (Da & Do & _). destruct D' as (Da' & Do' & _). rewrite <- Own, <- Do, <- Do' in Eo. destruct (own_cell n st h j o F' Eo) as (v & b & Hc & Ov).
    rewrite (usage_cell _ _ _ _ _ o Hc), Ov. rewrite <- R, <- R' in Er. rewrite (I' h j v b r Hc Er W). reflexivity.
Qed.

Lemma kept_spec : forall related probabilistic keys j r, at_ related j r ->
  (forall p, probabilistic = Some p -> length p = length related) ->
  exists b, at_ (compatible_mask related probabilistic keys) j b /\
    (b = true <-> (In r keys \/ whole_day r) /\ forall p, probabilistic = Some p -> at_ p j false).
Proof.
  intros related probabilistic keys j r Er Lp. unfold compatible_mask.
  assert (M : at_ (map (fun r => str_in r keys || always_on r) related) j (str_in r keys || always_on r)) by (apply at_map; eauto).
  assert (X : str_in r keys || always_on r = true <-> In r keys \/ whole_day r) by (rewrite orb_true_iff, str_in_In, always_on_spec; reflexivity).
  destruct probabilistic as [p|].
  - specialize (Lp p eq_refl). destruct (nth_error p j) as [q|] eqn:Eq; [|apply nth_error_None in Eq; pose proof (at_lt _ _ _ _ Er); lia].
    exists ((str_in r keys || always_on r) && negb q). split; [apply at_map2; eauto|]. rewrite andb_true_iff, X. split.
    + intros [A B]. split; [exact A|]. intros p' E. injection E as <-. destruct q; [discriminate|exact Eq].
    + intros [A B]. split; [exact A|]. specialize (B p eq_refl). unfold at_ in B. rewrite B in Eq. injection Eq as <-. reflexivity.
  - exists (str_in r keys || always_on r). split; [exact M|]. rewrite X. split; [|tauto]. intro A. split; [exact A|discriminate].
Qed.

Lemma mentions_dget : forall (acts : list (string * list Z)) act, mentions acts act -> exists l, dget String.eqb acts act = Some l /\ In (act, l) acts.
Proof.
  unfold mentions. induction acts as [|[k x] t IH]; intros act; cbn [map fst dget In]; [tauto|]. intro I.
  destruct (String.eqb_spec act k) as [->|N]; [exists x; auto|]. destruct I as [I|I]; [congruence|]. destruct (IH act I) as (l & A & C). exists l. auto.
Qed.

Lemma step_defined : forall n st acts, formed n st -> counts_of n acts -> counts_of n (a_prev st) ->
  (forall act j, mentions acts act -> at_ (a_related st) j act -> mentions (a_prev st) act) -> exists st', act_step st acts = Ok st'.
Proof.
  intros n st acts F Ca Cp Hm. apply (step_total n); [exact F|intros act l I; apply (proj2 Ca act l I)|]. intros act j M Ej.
  destruct (mentions_dget _ _ (Hm act j M Ej)) as (l & A & B). exists l. split; [exact A|]. apply (proj2 Cp act l B).
Qed.

Lemma step_left_out : forall n st acts act j, formed n st -> counts_of n acts -> counts_of n (a_prev st) ->
  mentions acts act -> at_ (a_related st) j act -> ~ mentions (a_prev st) act -> act_step st acts = Err KeyError.
Proof.
  intros n st acts act j F [_ Ca] [_ Cp] M Ej NM. unfold act_step.
  assert (X : fold_result act_turn acts st = Err KeyError); [|rewrite X; reflexivity].
  revert st F Cp M Ej NM. induction acts as [|[a now] acts IH]; intros st F Cp M Ej NM; [destruct M|]. cbn [fold_result].
  assert (Ka : a = act -> act_turn st (a, now) = Err KeyError).
  { intros ->. unfold act_turn. rewrite (proj2 (some_mask act (a_related st))) by eauto. cbn [negb].
    destruct (dget String.eqb (a_prev st) act) as [l|] eqn:E; [|reflexivity]. exfalso. apply NM. exact (dget_mentions _ _ _ E). }
  destruct (string_dec a act) as [E|N]; [rewrite (Ka E); reflexivity|].
  destruct (act_turn st (a, now)) as [st1|e] eqn:E; cbn [bind].
  - destruct (turn_ok _ _ _ _ E) as ((_ & R & P) & F1 & _). apply IH; auto.
    + intros a' l I. apply (Ca a' l). right. exact I.
    + rewrite P. exact Cp.
    + destruct M as [M|M]; [simpl in M; congruence|exact M].
    + rewrite R. exact Ej.
    + rewrite P. exact NM.
  - destruct (in_dec string_dec a (map fst (a_prev st))) as [I|I].
    + exfalso. destruct (mentions_dget _ _ I) as (before & D & Ib). destruct (turn_total n st a now F) as [st1 E1].
      * apply (Ca a now). left. reflexivity.
      * intros j' _. exists before. split; [exact D|apply (Cp a before Ib)].
      * congruence.
    + unfold act_turn in E. destruct (existsb _ _); cbn [negb] in E; [|discriminate].
      destruct (dget String.eqb (a_prev st) a) as [before|] eqn:D; [exfalso; apply I; exact (dget_mentions _ _ _ D)|]. congruence.
Qed.

(** ** Readings from the constructor *)

Section Read.
  Variables (n : nat) (apps : list app) (related : list string) (own : list (list bool)) (algo : profiles_algo) (sw fu : result real_loads).
  Variables (p1 p2 start : nat -> nat -> nat) (wait : nat -> nat -> Z) (acts0 : list (string * list Z)) (st0 : actsim).
  Hypothesis B : built n apps related own algo sw fu p1 p2 start wait acts0 st0.
  Hypothesis AL : forall real, sw = Ok real \/ fu = Ok real -> at_least 1 real.
  Hypothesis St : starts (s_load_dur (a_base st0)) start.

  Lemma whole_position : forall s h j v r, make_appliances apps related own algo sw fu p1 p2 start wait = Ok s -> same_data s (a_base st0) ->
    sees s h j v -> at_ related j r -> whole_day r -> 0 < v_dur v -> position v (v_dur v - start h j).
  Proof.
    intros s h j v r E (_ & _ & Dd & _) Hv Er W D. destruct B as (Lr & So & _ & _).
    destruct (parent_left apps related own algo sw fu p1 p2 start wait n Lr So s E) as (_ & Cl). destruct (Cl h j v r Hv Er) as (C1 & _).
    destruct (C1 W D) as [D1 E1]. destruct Hv as (_ & _ & _ & _ & V5 & _). rewrite <- Dd in V5. specialize (St h j _ V5 D1).
    split; [lia|]. rewrite E1. replace (v_dur v - (v_dur v - start h j)) with (start h j) by lia. reflexivity.
  Qed.

  Lemma built_ordered : in_order st0.
  Proof.
    destruct (built_parts _ _ _ _ _ _ _ _ _ _ _ _ _ B) as (s & E & Hi & Sim & Lr' & Own & F & R & P & D & Off). pose proof B as (Lr & So & Ca & _).
    apply (init_in_order n s related acts0 st0 Sim Lr' Ca Hi). intros h j v r Hv Er Ow Va.
    destruct (parent_left apps related own algo sw fu p1 p2 start wait n Lr So s E) as (_ & Cl). destruct (Cl h j v r Hv Er) as (C1 & C2).
    assert (Rd : ready s).
    { unfold make_appliances in E. eapply (built_ready apps related own algo sw fu p1 p2 wait n Lr So _ s 1 E); [lia|exact AL|]. fold (make_appliances apps related own algo sw fu p1 p2 start wait) in E.
      intros h' j' w Hw. destruct (make_ok _ apps related own algo sw fu p1 p2 wait n Lr So s E) as (L & left & _ & _ & LA & _).
      destruct (view_parts apps related Lr s h' j' w LA Hw) as (a & r' & Ea & Er'). destruct (Cl h' j' w r' Hw Er') as (X1 & X2).
      destruct (Nat.eq_dec (v_dur w) 0) as [Z|NZ]; [rewrite X2 by (intros [_ X]; lia); apply qn_nonneg|].
      destruct (always_on r') eqn:Ar; [apply always_on_spec in Ar|apply not_whole in Ar; rewrite X2 by tauto; apply qn_nonneg].
      destruct (position_left w _ (whole_position s h' j' w r' E D Hw Er' Ar ltac:(lia))) as [_ X]. exact X. }
    destruct (Rd h j v Hv Ow Va) as (Dp & _ & profiles & profile & Q1 & Q2 & Q3).
    split; [split; [exact Dp|exists profile; split; [exists profiles; auto|exact Q3]]|].
    assert (Wp : whole_day r -> exists i, position v i) by (intro W; eexists; exact (whole_position s h j v r E D Hv Er W Dp)).
    split; [|exact Wp]. destruct (always_on r) eqn:Ar; [apply always_on_spec in Ar; right; auto|]. apply not_whole in Ar. left. rewrite C2 by tauto. reflexivity.
  Qed.

  Lemma run_ordered : forall l st, (forall acts, In acts l -> counts_of n acts) -> act_run st0 l = Ok st ->
    formed n st /\ in_order st /\ a_prev st = last l acts0 /\ a_related st = related /\ same_data (a_base st0) (a_base st).
  Proof.
    intros l st Cl H. destruct (built_parts _ _ _ _ _ _ _ _ _ _ _ _ _ B) as (s & E & Hi & Sim & Lr' & Own & F & R & P & D & Off). pose proof B as (Lr & So & Ca & _).
    destruct (run_in_order l n st0 st F) as [_ I]; [intros a Ha; apply (Cl a Ha)|exact built_ordered|exact H|].
    destruct (run_invariant (fun _ _ => True) (fun _ => True) n) with (l := l) (hist := [a_prev st0]) (st := st0) (st' := st) as (F' & P' & R' & D' & _); auto.
    - left. reflexivity.
    - rewrite P. exact Ca.
    - rewrite P in P'. rewrite R in R'. auto.
  Qed.

  Lemma readings_defined_ : forall l st, (forall acts, In acts l -> counts_of n acts) -> act_run st0 l = Ok st -> exists P, act_power st = Ok P /\ shaped n (length apps) P.
  Proof.
    intros l st Cl H. destruct (run_ordered l st Cl H) as (F & I & _ & _ & (Da & _)). destruct (reading_total n st F I) as [P E]. exists P. split; [exact E|].
    destruct (built_parts _ _ _ _ _ _ _ _ _ _ _ _ _ B) as (s & _ & _ & _ & Lr' & _ & _ & _ & _ & (Da' & _) & _). destruct B as (Lr & _).
    replace (length apps) with (length (s_apps (a_base st))) by (rewrite Da, Da'; congruence).
    apply (power_of_shape n (a_base st) (act_usage st) P (proj1 F) (usage_shaped n st F) E).
  Qed.

  (** From a state where the position is known. *)
  Lemma reads_from : forall l1 l2 st1 st2 h j v b r i P, (forall a, In a (List.app l1 l2) -> counts_of n a) -> act_run st0 l1 = Ok st1 -> act_run st1 l2 = Ok st2 ->
    act_power st2 = Ok P -> cell st1 h j v b -> at_ related j r -> ap_variable (v_app v) = true -> position v i -> no_begin (last l1 acts0) l2 r h ->
    at2 (act_usage st2) h j true -> reads st2 P h j ((i + length l2) mod v_dur v).
  Proof.
    intros l1 l2 st1 st2 h j v b r i P Cl H1 H2 HP Hc Er Va Pi NB U.
    destruct (run_ordered l1 st1) as (F & I & Pv & R & D); [intros a Ha; apply Cl; apply in_or_app; auto|exact H1|].
    assert (Cp : counts_of n (a_prev st1)).
    { rewrite Pv. destruct B as (_ & _ & Ca & _). destruct l1 as [|x t] using rev_ind; [exact Ca|]. rewrite last_last. apply Cl. apply in_or_app. left. apply in_or_app. right. left. reflexivity. }
    destruct (run_position l2 n st1 st2 h j v b r i F) as (w & b' & Hw & (S1 & S2 & S3 & S4) & Pw & _); auto.
    - intros a Ha. apply Cl. apply in_or_app. auto.
    - rewrite R. exact Er.
    - rewrite Pv. exact NB.
    - apply (usage_cell _ _ _ _ _ _ Hw) in U. symmetry in U. apply andb_true_iff in U. destruct U as [-> Ow].
      destruct (reading_position st2 P h j w ((i + length l2) mod v_dur v) Hw Ow) as (profile & x & p & A1 & A2 & A3 & A4); [congruence|exact Pw|exact HP|].
      exists w, profile, x, p. split; [apply Hw|auto].
  Qed.

  Lemma begins_reads_ : forall l0 st acts st1 l st2 P, (forall a, In a (List.app l0 (acts :: l)) -> counts_of n a) ->
    act_run st0 l0 = Ok st -> act_step st acts = Ok st1 -> act_run st1 l = Ok st2 -> act_power st2 = Ok P ->
    forall h j a r, at_ (s_apps (a_base st0)) j a -> ap_variable a = true -> at_ related j r ->
    begins (last l0 acts0) acts r h -> no_begin acts l r h -> at2 (act_usage st2) h j true ->
    forall d, at2 (s_load_dur (a_base st0)) h j d -> reads st2 P h j (S (length l) mod d).
  Proof.
    intros l0 st acts st1 l st2 P Cl H0 H1 H2 HP h j a r Ea Va Er Bg NB U d Ed.
    destruct (run_ordered l0 st) as (F & I & Pv & R & (Da & Do & Dd & Di & Dl)); [intros x Hx; apply Cl; apply in_or_app; auto|exact H0|].
    assert (Ca : counts_of n acts) by (apply Cl; apply in_or_app; right; left; reflexivity).
    destruct (at2_shaped _ _ _ _ _ _ _ (proj1 (proj2 (proj2 (proj2 (proj1 F))))) (eq_ind_r (fun m => at2 m h j d) Ed Dd)) as [Lh Lj].
    destruct (formed_cell n st h j F Lh Lj) as (v & b & Hc).
    assert (Ev : v_app v = a). { destruct Hc as [(V1 & _) _]. rewrite Da in V1. unfold at_ in *. congruence. }
    assert (Ed' : v_dur v = d). { destruct Hc as [(_ & _ & _ & _ & V5 & _) _]. rewrite Dd in V5. exact (at2_fun _ _ _ _ _ _ V5 Ed). }
    destruct (step_ok _ _ _ (proj1 Ca) H1) as ((_ & Do1 & _) & _ & P1 & FF & C). rewrite <- R in Er. destruct (C n h j v b r F Hc Er) as [_ C2]. rewrite R in Er.
    destruct Bg as [Bp (c & Lc & Bc)]. rewrite <- Pv in Bp.
    destruct C2 as (p' & c' & Pp & Pc & Hc1). { destruct Bc as (x & Dx & _). exact (dget_mentions _ _ _ Dx). }
    rewrite (performs_fun _ _ _ _ _ Pp Bp), (performs_fun _ _ _ _ _ Pc Bc) in Hc1.
    assert (Sf : starting 0 c = true) by (unfold starting; destruct (Z.eqb_spec 0 c); [lia|reflexivity]).
    unfold new_view in Hc1. rewrite Sf, Ev, Va in Hc1. cbn [andb] in Hc1.
    assert (Run : act_run st0 (List.app l0 [acts]) = Ok st1).
    { clear -H0 H1. revert st0 H0. induction l0 as [|x t IH]; cbn [act_run List.app]; intros s0 H0; [injection H0 as ->; rewrite H1; reflexivity|].
      destruct (act_step s0 x) as [s1|]; [|discriminate]. cbn [bind] in *. exact (IH s1 H0). }
    (* an owner, since it is in use at the end *)
    assert (Ow : v_own v = true).
    { destruct (run_ordered (List.app l0 (acts :: l)) st2) as (F2 & _ & _ & _ & (Da2 & Do2 & _)); [exact Cl| |].
      - clear -Run H2. revert st0 Run. induction l0 as [|x t IH]; cbn [act_run List.app]; intros s0 Run.
        + destruct (act_step s0 acts) as [s1|]; [|discriminate]. cbn [bind act_run] in *. injection Run as ->. exact H2.
        + destruct (act_step s0 x) as [s1|]; [|discriminate]. cbn [bind] in *. exact (IH s1 Run).
      - destruct Hc as [(_ & V2 & _) _]. rewrite Do, <- Do2 in V2. destruct (own_cell n st2 h j _ F2 V2) as (w & bw & Hw & Ow).
        apply (usage_cell _ _ _ _ _ _ Hw) in U. symmetry in U. apply andb_true_iff in U. rewrite <- Ow. tauto. }
    destruct (I h j v b Hc Ow) as ((Dp & _) & _); [congruence|].
    pose proof (ticked_position (restarted v) 0 ltac:(simpl; congruence) (restarted_position v Dp)) as Ps.
    assert (Z := reads_from (List.app l0 [acts]) l st1 st2 h j (ticked (restarted v)) (new_used 0 c v b) r (1 mod v_dur v) P).
    change (v_dur (restarted v)) with (v_dur v) in *. change (v_dur (ticked (restarted v))) with (v_dur v) in Z.
    rewrite Nat.add_mod_idemp_l in Z by lia. rewrite <- Ed'. apply Z; auto.
    - rewrite <- app_assoc. exact Cl.
    - simpl. congruence.
    - rewrite last_last. exact NB.
  Qed.

  Lemma initial_reads_ : forall l st P, (forall a, In a l -> counts_of n a) -> act_run st0 l = Ok st -> act_power st = Ok P ->
    forall h j a r c, at_ (s_apps (a_base st0)) j a -> ap_variable a = true -> at_ related j r ->
    (0 < c)%Z -> performs acts0 r h c -> no_begin acts0 l r h -> at2 (act_usage st) h j true ->
    forall d, at2 (s_load_dur (a_base st0)) h j d -> reads st P h j (S (length l) mod d).
  Proof.
    intros l st P Cl H HP h j a r c Ea Va Er Lc Pc NB U d Ed.
    destruct (built_parts _ _ _ _ _ _ _ _ _ _ _ _ _ B) as (s & E & Hi & Sim & Lr' & Own & F & R & Pv & (Da & Do & Dd & _) & Off). pose proof B as (Lr & So & Ca & _).
    destruct (init_ok n s related acts0 st0 Sim Lr' (proj1 Ca) Hi) as (_ & _ & _ & _ & C). rewrite Da in Ea. rewrite Dd in Ed.
    destruct (at2_shaped _ _ _ _ _ _ _ (proj1 (proj2 (proj2 (proj2 Sim)))) Ed) as [Lh Lj]. destruct (simulates_sees n s h j Sim Lh Lj) as [v Hv].
    assert (Ev : v_app v = a) by (destruct Hv as (V1 & _); unfold at_ in *; congruence).
    assert (Ed' : v_dur v = d) by (destruct Hv as (_ & _ & _ & _ & V5 & _); exact (at2_fun _ _ _ _ _ _ V5 Ed)).
    destruct (C h j v r Hv Er) as [C1 _]. specialize (C1 (ex_intro _ c (conj Lc Pc))). rewrite Ev, Va in C1.
    destruct (run_ordered l st Cl H) as (F2 & _ & _ & _ & (_ & Do2 & _)).
    assert (Ow : v_own v = true).
    { destruct Hv as (_ & V2 & _). rewrite <- Do, <- Do2 in V2. destruct (own_cell n st h j _ F2 V2) as (w & bw & Hw & Ow).
      apply (usage_cell _ _ _ _ _ _ Hw) in U. symmetry in U. apply andb_true_iff in U. rewrite <- Ow. tauto. }
    destruct (built_ordered h j _ true C1) as ((Dp & _) & _); [exact Ow|simpl; congruence|]. change (v_dur (ticked (restarted v))) with (v_dur v) in Dp.
    pose proof (ticked_position (restarted v) 0 ltac:(simpl; congruence) (restarted_position v Dp)) as Ps.
    assert (Z := reads_from [] l st0 st h j (ticked (restarted v)) true r (1 mod v_dur v) P).
    change (v_dur (restarted v)) with (v_dur v) in *. change (v_dur (ticked (restarted v))) with (v_dur v) in Z.
    rewrite Nat.add_mod_idemp_l in Z by lia. rewrite <- Ed'. apply Z; auto. simpl. congruence.
  Qed.

  Lemma no_begin_unmentioned : forall l before r h, (forall a, In a l -> ~ mentions a r) -> no_begin before l r h.
  Proof.
    induction l as [|a l IH]; intros before r h N; [exact I|]. split; [|apply IH; intros x Hx; apply N; right; exact Hx].
    intros [_ (c & _ & x & D & _)]. apply (N a (or_introl eq_refl)). exact (dget_mentions _ _ _ D).
  Qed.

  Lemma whole_day_reads_ : forall l st P, (forall a, In a l -> counts_of n a) -> (forall a r, In a (acts0 :: l) -> whole_day r -> ~ mentions a r) ->
    act_run st0 l = Ok st -> act_power st = Ok P ->
    forall h j a r, at_ (s_apps (a_base st0)) j a -> ap_variable a = true -> at_ related j r -> whole_day r -> at2 own h j true ->
    forall d, at2 (s_load_dur (a_base st0)) h j d -> reads st P h j ((d - start h j + S (length l)) mod d).
  Proof.
    intros l st P Cl NM H HP h j a r Ea Va Er W Eo d Ed.
    assert (U : at2 (act_usage st) h j true).
    { apply (usage_whole_day n apps related own algo sw fu p1 p2 start wait acts0 st0 l st B Cl H) with (r := r); auto. intros x r0 Hx. apply NM. right. exact Hx. }
    destruct (built_parts _ _ _ _ _ _ _ _ _ _ _ _ _ B) as (s & E & Hi & Sim & Lr' & Own & F & R & Pv & D & Off). pose proof D as (Da & Do & Dd & _). pose proof B as (Lr & So & Ca & _).
    destruct (init_ok n s related acts0 st0 Sim Lr' (proj1 Ca) Hi) as (_ & _ & _ & _ & C). rewrite Da in Ea. rewrite Dd in Ed.
    destruct (at2_shaped _ _ _ _ _ _ _ (proj1 (proj2 (proj2 (proj2 Sim)))) Ed) as [Lh Lj]. destruct (simulates_sees n s h j Sim Lh Lj) as [v Hv].
    assert (Ev : v_app v = a) by (destruct Hv as (V1 & _); unfold at_ in *; congruence).
    assert (Ed' : v_dur v = d) by (destruct Hv as (_ & _ & _ & _ & V5 & _); exact (at2_fun _ _ _ _ _ _ V5 Ed)).
    assert (Ow : v_own v = true) by (destruct Hv as (_ & V2 & _); rewrite Own in V2; exact (at2_fun _ _ _ _ _ _ V2 Eo)).
    destruct (C h j v r Hv Er) as [_ C1].
    assert (N0 : ~ (exists c, (0 < c)%Z /\ performs acts0 r h c)).
    { intros (c & _ & x & Dx & _). apply (NM acts0 r (or_introl eq_refl) W). exact (dget_mentions _ _ _ Dx). }
    specialize (C1 N0). rewrite (proj2 (always_on_spec r) W) in C1.
    destruct (built_ordered h j _ true C1) as ((Dp & _) & _); [exact Ow|simpl; congruence|]. change (v_dur (ticked v)) with (v_dur v) in Dp.
    pose proof (whole_position s h j v r E D Hv Er W Dp) as P0. pose proof (ticked_position v _ ltac:(congruence) P0) as Ps.
    assert (Z := reads_from [] l st0 st h j (ticked v) true r (S (v_dur v - start h j) mod v_dur v) P).
    change (v_dur (ticked v)) with (v_dur v) in Z. rewrite Nat.add_mod_idemp_l in Z by lia. rewrite <- Ed'.
    replace (v_dur v - start h j + S (length l)) with (S (v_dur v - start h j) + length l) by lia. apply Z; auto.
    - simpl. congruence.
    - apply no_begin_unmentioned. intros x Hx. apply NM; [right; exact Hx|exact W].
  Qed.
End Read.

Lemma readings_defined : forall n apps related own algo sw fu p1 p2 start wait acts0 st0 l st,
  built n apps related own algo sw fu p1 p2 start wait acts0 st0 ->
  (forall real, sw = Ok real \/ fu = Ok real -> at_least 1 real) -> starts (s_load_dur (a_base st0)) start ->
  (forall acts, In acts l -> counts_of n acts) -> act_run st0 l = Ok st ->
  exists P, act_power st = Ok P /\ shaped n (length apps) P.
Proof. intros. eapply readings_defined_; eauto. Qed.

Lemma power_cell : forall st P h j v b, cell st h j v b -> act_power st = Ok P ->
  exists p, at2 P h j p /\
    (v_own v = false -> p == 0)%Q /\
    (v_own v = true -> b = false -> p == ap_standby (v_app v))%Q /\
    (v_own v = true -> b = true -> ap_variable (v_app v) = false -> p == ap_power (v_app v))%Q.
Proof.
  intros st P h j v b Hc H. destruct (power_of_at (a_base st) (act_usage st) P h j v (b && v_own v) H (proj1 Hc)) as (p & Hp & A & C & _).
  { apply (usage_cell _ _ _ _ _ _ Hc). reflexivity. }
  exists p. split; [exact Hp|]. split; [|split].
  - intro Ow. rewrite A by (rewrite Ow; apply andb_false_r). rewrite Ow. unfold b2q. ring.
  - intros Ow ->. rewrite A by reflexivity. rewrite Ow. unfold b2q. ring.
  - intros Ow -> Va. apply C; [rewrite Ow; reflexivity|exact Va].
Qed.

Lemma construction_defined : forall n apps related own algo switched full p1 p2 start wait acts,
  length related = length apps -> shaped n (length apps) own -> algo <> OtherAlgo ->
  picks (map ap_type apps) switched p1 -> picks (map ap_type apps) full p2 -> at_least 2 switched -> at_least 2 full -> counts_of n acts ->
  exists st, built n apps related own algo (Ok switched) (Ok full) p1 p2 start wait acts st.
Proof.
  intros n apps related own algo switched full p1 p2 start wait acts Lr So Ha P1 P2 A1 A2 Ca.
  destruct (make_total apps related own algo (Ok switched) (Ok full) p1 p2 start wait n Lr So switched full eq_refl eq_refl Ha P1 P2 A1 A2) as [s E].
  destruct (parent_left apps related own algo (Ok switched) (Ok full) p1 p2 start wait n Lr So s E) as (Sim & _).
  destruct (make_ok _ apps related own algo (Ok switched) (Ok full) p1 p2 wait n Lr So s E) as (L & left & _ & _ & LA & _).
  destruct (init_total n s related acts Sim) as [st Es]; [congruence|intros act l I; apply (proj2 Ca act l I)|].
  exists st. unfold built, make_activity. rewrite E. cbn [bind]. auto.
Qed.

Definition begins_reads n apps related own algo sw fu p1 p2 start wait acts0 st0 l0 st acts st1 l st2 P B AL St :=
  begins_reads_ n apps related own algo sw fu p1 p2 start wait acts0 st0 B AL St l0 st acts st1 l st2 P.
Definition initial_reads n apps related own algo sw fu p1 p2 start wait acts0 st0 l st P B AL St :=
  initial_reads_ n apps related own algo sw fu p1 p2 start wait acts0 st0 B AL St l st P.
Definition whole_day_reads n apps related own algo sw fu p1 p2 start wait acts0 st0 l st P B AL St :=
  whole_day_reads_ n apps related own algo sw fu p1 p2 start wait acts0 st0 B AL St l st P.
