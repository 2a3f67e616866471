(** * Proofs about activity driven appliances. *)

From Coq Require Import String List ZArith QArith Bool Arith Lia Lqa.
From Verif Require Import Prelude PreludeFacts SpecBase SpecBaseFacts Parse_Model Appliance_Model Appliance_Spec AppSetup_Model AppSetup_Spec ActApp_Model ActApp_Spec.
From Verif Require Import Matrix_Proofs Appliance_Proofs Appliance_RunProofs Appliance_TypeProofs AppSetup_Proofs AppSetup_InitProofs.
Import ListNotations.
Local Open Scope nat_scope.

Lemma cross_in : forall hh apps h j, In (h, j) (cross hh apps) <-> at_ hh h true /\ at_ apps j true.
Proof.
  intros hh apps h j. unfold cross. rewrite where2_in. unfold at2. split.
  - intros (row & E1 & E2). apply at_map in E1. destruct E1 as (b & Eb & ->). apply at_map in E2. destruct E2 as (c & Ec & E).
    symmetry in E. apply andb_true_iff in E. destruct E as [-> ->]. auto.
  - intros [E1 E2]. exists (map (andb true) apps). split; [apply at_map; eauto|]. apply at_map. eauto.
Qed.

(** ** Static parts *)

Definition same_data (s s' : asim) : Prop :=
  s_apps s' = s_apps s /\ s_own s' = s_own s /\ s_load_dur s' = s_load_dur s /\ s_load_id s' = s_load_id s /\ s_loads s' = s_loads s.

Lemma same_data_trans : forall s1 s2 s3, same_data s1 s2 -> same_data s2 s3 -> same_data s1 s3.
Proof. unfold same_data. intuition congruence. Qed.
Lemma same_data_refl : forall s, same_data s s.
Proof. unfold same_data. auto. Qed.

Lemma start_cycles_data : forall s s' idx ds, start_cycles s idx ds = Ok s' -> same_data s s'.
Proof.
  unfold start_cycles. intros s s' idx ds H. destruct (mput _ (s_left s)); [|discriminate]. cbn [bind] in H. destruct (mapM _ _); [|discriminate]. cbn [bind] in H.
  destruct (mput _ (s_refresh s)); [|discriminate]. cbn [bind] in H. injection H as <-. unfold same_data. simpl. auto.
Qed.

Definition static (st st' : actsim) : Prop :=
  same_data (a_base st) (a_base st') /\ a_related st' = a_related st /\ a_prev st' = a_prev st.
Lemma static_trans : forall a b c, static a b -> static b c -> static a c.
Proof. unfold static. intros a b c (A & B & C) (D & E & F). split; [eapply same_data_trans; eauto|split; congruence]. Qed.

Lemma formed_cell : forall n st h j, formed n st -> h < n -> j < length (s_apps (a_base st)) -> exists v b, cell st h j v b.
Proof.
  intros n st h j (S & U & _) Lh Lj. destruct (simulates_sees n _ h j S Lh Lj) as [v Hv]. destruct (shaped_at2 _ _ _ _ h j U Lh Lj) as [b Hb].
  exists v, b. split; assumption.
Qed.

Lemma cell_fun : forall st h j v b w c, cell st h j v b -> cell st h j w c -> v = w /\ b = c.
Proof. intros st h j v b w c [A B] [C D]. split; [eapply sees_fun; eauto|eapply at2_fun; eauto]. Qed.

Lemma cell_formed : forall n st h j v b, formed n st -> cell st h j v b -> h < n /\ j < length (s_apps (a_base st)).
Proof. intros n st h j v b (_ & U & _) [_ B]. exact (at2_shaped _ _ _ _ _ _ _ U B). Qed.

(** ** Switching *)

Definition restarted (v : view) : view := recount v (qn (v_dur v)) (refresh_after (v_app v) (qn (v_dur v))).

Lemma act_on_ok : forall st idx st', act_switch_on st idx = Ok st' ->
  static st st' /\ (forall n, formed n st -> formed n st') /\
  forall h j v b, cell st h j v b ->
    (In (h, j) idx -> cell st' h j (if ap_variable (v_app v) then restarted v else v) true) /\ (~ In (h, j) idx -> cell st' h j v b).
Proof.
  unfold act_switch_on. intros st idx st' H. destruct (switch_on_variable_loads _ _) as [s|] eqn:E1; [|discriminate]. cbn [bind] in H.
  destruct (mput _ (a_used st)) as [used|] eqn:E2; [|discriminate]. cbn [bind] in H. injection H as <-.
  unfold switch_on_variable_loads in E1.
  match type of E1 with bind (mapM ?f ?l) _ = _ => destruct (mapM f l) as [ds1|] eqn:M1 end; cbn [bind] in E1; [|discriminate].
  destruct (start_cycles_ok _ _ _ _ _ M1 E1) as (A1 & A2 & _ & A3). pose proof (start_cycles_data _ _ _ _ E1) as D.
  destruct (mput_ok _ _ _ _ E2) as (U1 & U2 & U3).
  split. { split; [exact D|auto]. }
  split. { intros n (S & U & L). unfold formed. simpl. destruct D as (Da & _). rewrite Da. auto. }
  intros h j v b [Hv Hb]. pose proof (is_variable_view _ _ _ _ Hv) as Vv. destruct (A3 h j v Hv) as [Ain Anot]. split.
  - intro Hin. split; simpl.
    + destruct (ap_variable (v_app v)) eqn:Ev.
      * destruct Ain as (d & Gd & Sd). { apply filter_In. auto. }
        cbn [fst snd] in Gd. destruct (mget (s_load_dur (a_base st)) h j) as [ld|] eqn:El; cbn [bind] in Gd; [|discriminate].
        injection Gd as <-. apply mget_ok in El. destruct Hv as (_ & _ & _ & _ & V5 & _). rewrite (at2_fun _ _ _ _ _ _ El V5) in Sd. exact Sd.
      * apply Anot. intro Hf. apply filter_In in Hf. destruct Hf as [_ Hf]. congruence.
    + destruct (U1 h j) as (x & Ix & Ax). { exists true. apply in_map_iff. exists (h, j). auto. }
      apply in_map_iff in Ix. destruct Ix as (k & Ek & _). injection Ek as _ <-. exact Ax.
  - intro Hn. split; simpl.
    + apply Anot. intro Hf. apply filter_In in Hf. tauto.
    + apply U2; [|exact Hb]. intro I. rewrite map_map in I. apply in_map_iff in I. destruct I as (k & Ek & I). simpl in Ek. subst k. contradiction.
Qed.

Lemma act_on_total : forall n st idx, formed n st -> (forall h j, In (h, j) idx -> h < n /\ j < length (s_apps (a_base st))) ->
  exists st', act_switch_on st idx = Ok st'.
Proof.
  intros n st idx (S & U & L) Hin. unfold act_switch_on, switch_on_variable_loads.
  match goal with |- exists st', bind (bind (mapM ?f ?l) _) _ = _ => destruct (mapM_total _ _ f l) as [ds M] end.
  { intros [h j] I. apply filter_In in I. destruct I as [I _]. destruct (Hin h j I) as [Lh Lj].
    destruct S as (_ & _ & _ & Sd & _). destruct (shaped_at2 _ _ _ _ h j Sd Lh Lj) as [d Ed]. apply mget_ok in Ed. simpl. rewrite Ed. cbn [bind]. eauto. }
  rewrite M. cbn [bind]. destruct (start_cycles_total _ n (a_base st) _ ds S M) as [s Es].
  { intros h j I. apply filter_In in I. apply Hin. tauto. }
  rewrite Es. cbn [bind]. destruct (mput_total _ (map (fun k => (k, true)) idx) (a_used st) n _ U) as [used Eu].
  { intros h j v I. apply in_map_iff in I. destruct I as (k & Ek & I). injection Ek as -> _. auto. }
  rewrite Eu. cbn [bind]. eauto.
Qed.

Lemma act_off_ok : forall st idx st', act_switch_off st idx = Ok st' ->
  static st st' /\ (forall n, formed n st -> formed n st') /\
  forall h j v b, cell st h j v b -> (In (h, j) idx -> cell st' h j v false) /\ (~ In (h, j) idx -> cell st' h j v b).
Proof.
  unfold act_switch_off. intros st idx st' H. destruct (mput _ (a_used st)) as [used|] eqn:E2; [|discriminate]. cbn [bind] in H. injection H as <-.
  destruct (mput_ok _ _ _ _ E2) as (U1 & U2 & U3).
  split. { split; [apply same_data_refl|auto]. } split. { intros n (S & U & L). unfold formed. simpl. auto. }
  intros h j v b [Hv Hb]. split.
  - intro Hin. split; [exact Hv|]. simpl. destruct (U1 h j) as (x & Ix & Ax). { exists false. apply in_map_iff. exists (h, j). auto. }
    apply in_map_iff in Ix. destruct Ix as (k & Ek & _). injection Ek as _ <-. exact Ax.
  - intro Hn. split; [exact Hv|]. simpl. apply U2; [|exact Hb]. intro I. rewrite map_map in I. apply in_map_iff in I. destruct I as (k & Ek & I). simpl in Ek. subst k. contradiction.
Qed.

Lemma act_off_total : forall n st idx, formed n st -> (forall h j, In (h, j) idx -> h < n /\ j < length (s_apps (a_base st))) ->
  exists st', act_switch_off st idx = Ok st'.
Proof.
  intros n st idx (S & U & L) Hin. unfold act_switch_off. destruct (mput_total _ (map (fun k => (k, false)) idx) (a_used st) n _ U) as [used Eu].
  { intros h j v I. apply in_map_iff in I. destruct I as (k & Ek & I). injection Ek as -> _. auto. }
  rewrite Eu. cbn [bind]. eauto.
Qed.

(** ** One activity of a step *)

(** What happens to an appliance whose activity had [p] and now has [c] residents. *)
Definition starting (p c : Z) : bool := negb (Z.eqb p c) && Z.eqb p 0.
Definition stopping (p c : Z) : bool := negb (Z.eqb p c) && Z.eqb c 0.
Definition new_view (p c : Z) (v : view) : view := if starting p c && ap_variable (v_app v) then restarted v else v.
Definition new_used (p c : Z) (v : view) (b : bool) : bool :=
  if starting p c then true else if stopping p c && ap_off (v_app v) then false else b.

Lemma mask_row : forall act related j, at_ (map (String.eqb act) related) j true <-> at_ related j act.
Proof.
  intros act related j. rewrite at_map. split.
  - intros (r & E & T). symmetry in T. apply String.eqb_eq in T. subst r. exact E.
  - intro E. exists act. split; [exact E|]. symmetry. apply String.eqb_refl.
Qed.

Lemma some_mask : forall act related, existsb (fun b => b) (map (String.eqb act) related) = true <-> exists j, at_ related j act.
Proof.
  intros act related. rewrite existsb_exists. split.
  - intros (b & I & ->). apply In_nth_error in I. destruct I as [j E]. exists j. apply mask_row. exact E.
  - intros [j E]. exists true. split; [|reflexivity]. apply mask_row in E. eapply nth_error_In. exact E.
Qed.

Lemma turn_ok : forall st act now st', act_turn st (act, now) = Ok st' ->
  static st st' /\ (forall n, formed n st -> formed n st') /\
  forall n h j v b r, formed n st -> cell st h j v b -> at_ (a_related st) j r ->
    (r <> act -> cell st' h j v b) /\
    (r = act -> exists p c, performs (a_prev st) act h p /\ at_ now h c /\ cell st' h j (new_view p c v) (new_used p c v b)).
Proof.
  unfold act_turn. intros st act now st' H. destruct (existsb (fun b => b) (map (String.eqb act) (a_related st))) eqn:Ex; cbn [negb] in H.
  - destruct (dget String.eqb (a_prev st) act) as [before|] eqn:Ep; [|discriminate].
    destruct (Nat.eqb_spec (length before) (length (s_own (a_base st)))) as [L1|]; [|discriminate].
    destruct (Nat.eqb_spec (length now) (length (s_own (a_base st)))) as [L2|]; [|discriminate]. cbn [andb negb] in H.
    destruct (act_switch_off _ _) as [st1|] eqn:E1; [|discriminate]. cbn [bind] in H.
    destruct (act_off_ok _ _ _ E1) as (S1 & F1 & C1). destruct (act_on_ok _ _ _ H) as (S2 & F2 & C2).
    split; [eapply static_trans; eauto|]. split; [auto|]. intros n h j v b r F Hc Er.
    destruct (C1 h j v b Hc) as [Off NotOff].
    assert (Ea : at_ (s_apps (a_base st)) j (v_app v)) by apply Hc.
    split.
    + intro N. assert (X1 : cell st1 h j v b).
      { apply NotOff. rewrite cross_in. intros [_ X]. apply at_map2 in X. destruct X as (x & y & X & _ & T). symmetry in T. apply andb_true_iff in T. destruct T as [-> _].
        apply mask_row in X. unfold at_ in *. congruence. }
      apply (C2 h j v b X1). rewrite cross_in. intros [_ X]. apply mask_row in X. unfold at_ in *. congruence.
    + intros ->. assert (Lh : h < length (s_own (a_base st))).
      { destruct F as (S & U & _). destruct S as ([Ln _] & _). rewrite Ln. exact (proj1 (at2_shaped _ _ _ _ _ _ _ U (proj2 Hc))). }
      destruct (nth_error before h) as [p|] eqn:Ehp; [|apply nth_error_None in Ehp; lia].
      destruct (nth_error now h) as [c|] eqn:Ehc; [|apply nth_error_None in Ehc; lia].
      exists p, c. split; [exists before; auto|]. split; [exact Ehc|].
      assert (Son : at_ (map2 (fun p c => negb (Z.eqb p c) && Z.eqb p 0) before now) h true <-> starting p c = true).
      { rewrite at_map2. split; [intros (x & y & X & Y & T); unfold at_ in *; unfold starting; congruence|]. intro T. exists p, c. unfold starting in T. auto. }
      assert (Soff : at_ (map2 (fun p c => negb (Z.eqb p c) && Z.eqb c 0) before now) h true <-> stopping p c = true).
      { rewrite at_map2. split; [intros (x & y & X & Y & T); unfold at_ in *; unfold stopping; congruence|]. intro T. exists p, c. unfold stopping in T. auto. }
      assert (Ioff : In (h, j) (cross (map2 (fun p c => negb (Z.eqb p c) && Z.eqb c 0) before now) (map2 andb (map (String.eqb act) (a_related st)) (map ap_off (s_apps (a_base st)))))
                     <-> stopping p c = true /\ ap_off (v_app v) = true).
      { rewrite cross_in, Soff, at_map2. split.
        - intros (T & x & y & X & Y & Z). split; [exact T|]. symmetry in Z. apply andb_true_iff in Z. destruct Z as [_ ->].
          apply at_map in Y. destruct Y as (a & Ya & ->). unfold at_ in *. congruence.
        - intros (T & O). split; [exact T|]. exists true, true. split; [apply mask_row; exact Er|]. split; [|reflexivity]. apply at_map. exists (v_app v). auto. }
      assert (X1 : cell st1 h j v (if stopping p c && ap_off (v_app v) then false else b)).
      { destruct (stopping p c) eqn:Es; destruct (ap_off (v_app v)) eqn:Eo; cbn [andb];
          [apply Off|apply NotOff|apply NotOff|apply NotOff]; rewrite Ioff; intuition congruence. }
      destruct (C2 h j _ _ X1) as [On NotOn].
      assert (Ion : In (h, j) (cross (map2 (fun p c => negb (Z.eqb p c) && Z.eqb p 0) before now) (map (String.eqb act) (a_related st))) <-> starting p c = true).
      { rewrite cross_in, Son, mask_row. tauto. }
      unfold new_view, new_used. destruct (starting p c) eqn:Es; cbn [andb]; [apply On; apply Ion; reflexivity|apply NotOn; rewrite Ion; discriminate].
  - injection H as <-. split; [split; [apply same_data_refl|auto]|]. split; [auto|]. intros n h j v b r F Hc Er. split; [auto|].
    intros ->. exfalso. assert (X : existsb (fun b => b) (map (String.eqb act) (a_related st)) = true) by (apply some_mask; eauto). congruence.
Qed.

Lemma turn_total : forall n st act now, formed n st -> length now = n ->
  (forall j, at_ (a_related st) j act -> exists before, dget String.eqb (a_prev st) act = Some before /\ length before = n) ->
  exists st', act_turn st (act, now) = Ok st'.
Proof.
  unfold act_turn. intros n st act now F Ln Hp. destruct (existsb _ _) eqn:Ex; cbn [negb]; [|eauto].
  apply some_mask in Ex. destruct Ex as [j Ej]. destruct (Hp j Ej) as (before & Eb & Lb). rewrite Eb.
  assert (Lo : length (s_own (a_base st)) = n) by (destruct F as (([L _] & _) & _); exact L).
  rewrite Lb, Ln, Lo, Nat.eqb_refl. cbn [andb negb].
  assert (B : forall f m, length m <= length (s_apps (a_base st)) ->
     forall h j, In (h, j) (cross (map2 f before now) m) -> h < n /\ j < length (s_apps (a_base st))).
  { intros f m Lm h j' I. apply cross_in in I. destruct I as [I1 I2]. apply at_lt in I1, I2. rewrite map2_length in I1. lia. }
  assert (Lrel : length (map (String.eqb act) (a_related st)) = length (s_apps (a_base st))) by (rewrite map_length; apply F).
  match goal with |- exists st', bind (act_switch_off st ?idx) _ = _ => destruct (act_off_total n st idx F) as [st1 E1] end.
  { apply B. rewrite map2_length, Lrel, map_length. lia. }
  rewrite E1. cbn [bind]. destruct (act_off_ok _ _ _ E1) as ((D & _) & F1 & _). destruct D as (Da & _). apply (act_on_total n).
  - auto.
  - rewrite Da. apply B. rewrite Lrel. lia.
Qed.

(** ** All activities of a step *)

Lemma dget_mentions : forall (acts : list (string * list Z)) act l, dget String.eqb acts act = Some l -> mentions acts act.
Proof.
  unfold mentions. induction acts as [|[k v] acts IH]; intros act l; cbn [dget]; [discriminate|].
  destruct (String.eqb_spec act k) as [->|]; [left; reflexivity|]. intro H. right. exact (IH _ _ H).
Qed.

Lemma performs_cons_other : forall act l acts a h c, a <> act -> (performs ((act, l) :: acts) a h c <-> performs acts a h c).
Proof.
  intros act l acts a h c N. unfold performs. cbn [dget]. destruct (String.eqb_spec a act); [contradiction|]. tauto.
Qed.
Lemma performs_cons_same : forall act l acts h c, performs ((act, l) :: acts) act h c <-> at_ l h c.
Proof.
  intros act l acts h c. unfold performs. cbn [dget]. rewrite String.eqb_refl. split; [intros (x & E & A); congruence|eauto].
Qed.
Lemma performs_fun : forall acts a h c d, performs acts a h c -> performs acts a h d -> c = d.
Proof. intros acts a h c d (l & E & A) (m & E' & B). unfold at_ in *. congruence. Qed.

Lemma fold_turns_ok : forall acts st st', NoDup (map fst acts) -> fold_result act_turn acts st = Ok st' ->
  static st st' /\ (forall n, formed n st -> formed n st') /\
  forall n h j v b r, formed n st -> cell st h j v b -> at_ (a_related st) j r ->
    (~ mentions acts r -> cell st' h j v b) /\
    (mentions acts r -> exists p c, performs (a_prev st) r h p /\ performs acts r h c /\ cell st' h j (new_view p c v) (new_used p c v b)).
Proof.
  induction acts as [|[act now] acts IH]; intros st st' ND H.
  { injection H as <-. split; [split; [apply same_data_refl|auto]|]. split; [auto|]. intros. split; [auto|]. intros []. }
  cbn [fold_result] in H. destruct (act_turn st (act, now)) as [st1|] eqn:E; [|discriminate]. cbn [bind] in H.
  simpl in ND. inversion ND as [|? ? Nin ND']; subst.
  destruct (turn_ok _ _ _ _ E) as (S1 & F1 & C1). destruct (IH st1 st' ND' H) as (S2 & F2 & C2).
  split; [eapply static_trans; eauto|]. split; [auto|]. intros n h j v b r F Hc Er.
  destruct S1 as (D1 & R1 & P1). destruct (C1 n h j v b r F Hc Er) as [Other Same].
  destruct (string_dec r act) as [->|N].
  - split; [intro X; exfalso; apply X; left; reflexivity|]. intros _. destruct (Same eq_refl) as (p & c & Pp & Pc & Hc1).
    exists p, c. split; [exact Pp|]. split; [apply performs_cons_same; exact Pc|].
    rewrite <- R1 in Er. destruct (C2 n h j _ _ act (F1 n F) Hc1 Er) as [X _]. apply X. exact Nin.
  - specialize (Other N). rewrite <- R1 in Er. destruct (C2 n h j v b r (F1 n F) Other Er) as [A B]. split.
    + intro X. apply A. intro Y. apply X. right. exact Y.
    + intros [X|X]; [simpl in X; congruence|]. destruct (B X) as (p & c & Pp & Pc & Hc1). exists p, c. rewrite P1 in Pp. split; [exact Pp|].
      split; [apply performs_cons_other; auto|exact Hc1].
Qed.

Lemma fold_turns_total : forall n acts st, formed n st -> (forall act l, In (act, l) acts -> length l = n) ->
  (forall act j, mentions acts act -> at_ (a_related st) j act -> exists before, dget String.eqb (a_prev st) act = Some before /\ length before = n) ->
  exists st', fold_result act_turn acts st = Ok st'.
Proof.
  intros n acts. induction acts as [|[act now] acts IH]; intros st F Hl Hp; [cbn; eauto|]. cbn [fold_result].
  destruct (turn_total n st act now F) as [st1 E].
  { apply (Hl act). left. reflexivity. } { intros j Ej. apply (Hp act j); [left; reflexivity|exact Ej]. }
  rewrite E. cbn [bind]. destruct (turn_ok _ _ _ _ E) as ((D & R & P) & F1 & _). apply IH; auto.
  - intros a l I. apply (Hl a l). right. exact I.
  - intros a j M Ej. rewrite R in Ej. rewrite P. apply (Hp a j); [right; exact M|exact Ej].
Qed.

(** ** The tick *)

Definition reload (v : view) : bool := Qltb 0 (v_left v) && negb (Qltb 0 (tick_left (v_left v))) && ap_variable (v_app v).
Definition ticked (v : view) : view :=
  recount v (if reload v then tick_left (v_left v) + inject_Z (Z.of_nat (v_dur v)) else tick_left (v_left v))%Q
            (if reload v then (tick_refresh (v_refresh v) + Z.of_nat (v_dur v))%Z else tick_refresh (v_refresh v)).

Lemma tick_sees : forall s h j v, sees s h j v -> sees (act_tick s) h j (ticked v).
Proof.
  intros s h j v (V1 & V2 & V3 & V4 & V5 & V6).
  assert (R : at2 (mmap2 pair (reload_mask s) (s_load_dur s)) h j (reload v, v_dur v)).
  { apply at2_mmap2. exists (reload v), (v_dur v). split; [|auto]. apply at2_mrow. exists (v_left v), (v_app v). auto. }
  repeat split; simpl; auto.
  - apply at2_mmap2. exists (reload v, v_dur v), (tick_left (v_left v)). split; [exact R|]. split; [apply at2_map; eauto|reflexivity].
  - apply at2_mmap2. exists (reload v, v_dur v), (tick_refresh (v_refresh v)). split; [exact R|]. split; [apply at2_map; eauto|reflexivity].
Qed.

Lemma tick_simulates : forall n s, simulates n s -> simulates n (act_tick s).
Proof.
  intros n s (H1 & H2 & H3 & H4 & H5). unfold simulates. simpl.
  assert (R : shaped n (length (s_apps s)) (mmap2 pair (reload_mask s) (s_load_dur s))).
  { apply shaped_mmap2; [|exact H4]. apply shaped_mrow; [exact H2|reflexivity]. }
  split; [exact H1|]. split; [apply shaped_mmap2; [exact R|apply shaped_map; exact H2]|].
  split; [apply shaped_mmap2; [exact R|apply shaped_map; exact H3]|]. split; [exact H4|exact H5].
Qed.

Lemma tick_data : forall s, same_data s (act_tick s).
Proof. intro s. unfold same_data. simpl. auto. Qed.

Lemma step_ok : forall st acts st', NoDup (map fst acts) -> act_step st acts = Ok st' ->
  same_data (a_base st) (a_base st') /\ a_related st' = a_related st /\ a_prev st' = acts /\ (forall n, formed n st -> formed n st') /\
  forall n h j v b r, formed n st -> cell st h j v b -> at_ (a_related st) j r ->
    (~ mentions acts r -> cell st' h j (ticked v) b) /\
    (mentions acts r -> exists p c, performs (a_prev st) r h p /\ performs acts r h c /\ cell st' h j (ticked (new_view p c v)) (new_used p c v b)).
Proof.
  unfold act_step. intros st acts st' ND H. destruct (fold_result act_turn acts st) as [st1|] eqn:E; [|discriminate]. cbn [bind] in H. injection H as <-.
  destruct (fold_turns_ok _ _ _ ND E) as ((D & R & P) & F & C). simpl. split; [eapply same_data_trans; [exact D|apply tick_data]|].
  split; [exact R|]. split; [reflexivity|]. split.
  { intros n Fn. destruct (F n Fn) as (S & U & L). unfold formed. simpl. split; [apply tick_simulates; exact S|auto]. }
  intros n h j v b r Fn Hc Er. destruct (C n h j v b r Fn Hc Er) as [A B]. split.
  - intro N. destruct (A N) as [X Y]. split; simpl; [apply tick_sees; exact X|exact Y].
  - intro M. destruct (B M) as (p & c & Pp & Pc & X & Y). exists p, c. split; [exact Pp|]. split; [exact Pc|]. split; simpl; [apply tick_sees; exact X|exact Y].
Qed.

Lemma step_total : forall n st acts, formed n st -> (forall act l, In (act, l) acts -> length l = n) ->
  (forall act j, mentions acts act -> at_ (a_related st) j act -> exists before, dget String.eqb (a_prev st) act = Some before /\ length before = n) ->
  exists st', act_step st acts = Ok st'.
Proof.
  intros n st acts F Hl Hp. destruct (fold_turns_total n acts st F Hl Hp) as [st1 E]. unfold act_step. rewrite E. cbn [bind]. eauto.
Qed.

(** ** Initial state *)

Lemma fold_init_ok : forall acts st st', NoDup (map fst acts) -> fold_result init_turn acts st = Ok st' ->
  static st st' /\ (forall n, formed n st -> formed n st') /\
  forall h j v b r, cell st h j v b -> at_ (a_related st) j r ->
    ((exists c, (0 < c)%Z /\ performs acts r h c) -> cell st' h j (if ap_variable (v_app v) then restarted v else v) true) /\
    (~ (exists c, (0 < c)%Z /\ performs acts r h c) -> cell st' h j v b).
Proof.
  induction acts as [|[act now] acts IH]; intros st st' ND H.
  { injection H as <-. split; [split; [apply same_data_refl|auto]|]. split; [auto|]. intros. split; [|auto]. intros (c & _ & l & E & _). discriminate. }
  cbn [fold_result] in H. destruct (init_turn st (act, now)) as [st1|] eqn:E; [|discriminate]. cbn [bind] in H.
  simpl in ND. inversion ND as [|? ? Nin ND']; subst. unfold init_turn in E. cbn [fst snd] in E.
  destruct (act_on_ok _ _ _ E) as (S1 & F1 & C1). destruct (IH st1 st' ND' H) as (S2 & F2 & C2).
  split; [eapply static_trans; eauto|]. split; [auto|]. intros h j v b r Hc Er. destruct (C1 h j v b Hc) as [On NotOn].
  assert (I : In (h, j) (cross (map (Z.ltb 0) now) (map (String.eqb act) (a_related st))) <-> r = act /\ exists c, (0 < c)%Z /\ at_ now h c).
  { rewrite cross_in, mask_row, at_map. split.
    - intros [(c & Ec & T) Ea]. unfold at_ in *. split; [congruence|]. exists c. symmetry in T. apply Z.ltb_lt in T. auto.
    - intros [-> (c & Pc & Ec)]. split; [|exact Er]. exists c. split; [exact Ec|]. symmetry. apply Z.ltb_lt. exact Pc. }
  destruct S1 as (D1 & R1 & P1). rewrite <- R1 in Er.
  destruct (string_dec r act) as [->|N].
  - assert (NM : ~ exists c, (0 < c)%Z /\ performs acts act h c).
    { intros (c & _ & l & El & _). apply Nin. apply (dget_mentions _ _ _ El). }
    split.
    + intros (c & Pc & Hp). apply performs_cons_same in Hp. apply (C2 h j _ true act); [|exact Er|exact NM]. apply On. apply I. eauto.
    + intro X. apply (C2 h j v b act); [|exact Er|exact NM]. apply NotOn. rewrite I. intros [_ (c & Pc & Ec)]. apply X. exists c. split; [exact Pc|].
      apply performs_cons_same. exact Ec.
  - assert (X1 : cell st1 h j v b) by (apply NotOn; rewrite I; tauto). destruct (C2 h j v b r X1 Er) as [A B].
    split; [intros (c & Pc & Hp); apply A; exists c; split; [exact Pc|]; apply performs_cons_other in Hp; auto|].
    intro X. apply B. intros (c & Pc & Hp). apply X. exists c. split; [exact Pc|]. apply performs_cons_other; auto.
Qed.
