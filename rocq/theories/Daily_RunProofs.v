(** * Proofs about runs of appliances driven by daily profiles. *)

From Coq Require Import String List ZArith QArith Bool Arith Lia Lqa.
From Verif Require Import Prelude PreludeFacts SpecBase SpecBaseFacts Parse_Model Parse_DurProofs GTou_Proofs Time_Model Time_Spec Time_Proofs
  Subgroup_Model Subgroup_Spec Subgroup_Proofs Appliance_Model Appliance_Spec Matrix_Proofs Appliance_Proofs Appliance_RunProofs AppSetup_Model AppSetup_InitProofs
  Daily_Model Daily_Spec Daily_Proofs.
Import ListNotations.
Local Open Scope Z_scope.

(** ** Labels *)

Lemma label_at : forall related j rel, at_ related j rel ->
  exists k, at_ (activities_inverse related) j k /\ at_ (activities_labels related) k rel.
Proof.
  intros related j rel H. exists (index_in String.compare rel (activities_labels related)). split.
  - unfold activities_inverse, at_ in *. rewrite nth_error_map, H. reflexivity.
  - apply index_in_at; [exact string_order|]. apply uniq_in; [exact string_order|]. eapply at_in. exact H.
Qed.

(** ** Any step *)

Lemma step_any : forall D labels types i s s', daily_step D labels types i s = Ok s' ->
  advanced daily s s' /\ exists pdf u1, occ_step (y_app (user s)) pdf types (in_u i) (in_vol i) (in_vol2 i) (in_occ i) = Ok (y_app (user s')) /\
    length (in_occ i) = length types /\ y_groups u1 = y_groups (user s') /\
    (if now s mod us_per_day =? d_refresh D then on_refresh D labels (now s) (step_size s) (user s) = Ok u1 else u1 = user s).
Proof.
  intros D labels types i s s' H. unfold daily_step, decorated in H. apply before_iff in H. destruct H as [Ad H]. split; [exact Ad|].
  assert (B : forall u u', step_body types i (now s) u = Ok u' -> exists pdf, occ_step (y_app u) pdf types (in_u i) (in_vol i) (in_vol2 i) (in_occ i) = Ok (y_app u') /\
     length (in_occ i) = length types /\ y_groups u = y_groups u').
  { intros u u' E. unfold step_body in E. destruct (Nat.eqb_spec (length (in_occ i)) (length types)) as [Lo|]; [|discriminate]. cbn [negb] in E.
    assert (X : exists u1, y_groups u1 = y_groups u /\ y_app u1 = y_app u /\ match y_current u1 with None => Err AttributeError | Some pdf =>
        bind (occ_step (y_app u1) pdf types (in_u i) (in_vol i) (in_vol2 i) (in_occ i)) (fun a => Ok (Daily (y_groups u1) (y_slices u1) (y_next u1) (y_current u1) a)) end = Ok u').
    { destruct (minute_at (now s) mod 10 =? 0).
      - unfold next_slice in E. destruct (nth_error (y_slices u) (y_next u)) as [x|]; [|discriminate]. cbn [bind] in E.
        exists (Daily (y_groups u) (y_slices u) (Nat.modulo (S (y_next u)) (length (y_slices u))) (Some x) (y_app u)). split; [reflexivity|]. split; [reflexivity|exact E].
      - cbn [bind] in E. exists u. auto. }
    destruct X as (u1 & G1 & G2 & X). destruct (y_current u1) as [pdf|]; [|discriminate]. exists pdf. rewrite <- G1, <- G2.
    destruct (occ_step (y_app u1) pdf types (in_u i) (in_vol i) (in_vol2 i) (in_occ i)) as [a|]; [|discriminate]. cbn [bind] in X. injection X as <-. auto. }
  unfold time_of_day in H. destruct (now s mod us_per_day =? d_refresh D).
  - destruct H as (u1 & H1 & H2). destruct (B _ _ H2) as (pdf & B1 & B2 & B3). exists pdf, u1. split; [|auto].
    unfold on_refresh in H1. destruct (update_subgroups _ _) as [u2|] eqn:E; [|discriminate]. cbn [bind] in H1. apply set_pdf_ok in H1. destruct H1 as (_ & _ & _ & X & _).
    unfold update_subgroups in E. destruct (mapM _ _); [|discriminate]. cbn [bind] in E. injection E as <-. simpl in X. rewrite <- X. exact B1.
  - destruct (B _ _ H) as (pdf & B1 & B2 & B3). exists pdf, (user s). auto.
Qed.

Lemma step_advances : forall D labels types i, advances daily (daily_step D labels types i).
Proof. intros D labels types i s s' H. apply step_any in H. tauto. Qed.

(** The arrays keep their sizes and the appliances their data. *)
Definition built (n : nat) (A : list app) (s : tsim daily) : Prop := simulates n (y_app (user s)) /\ s_apps (y_app (user s)) = A.

Lemma step_built : forall D labels types i s s' n A, fair i -> built n A s -> daily_step D labels types i s = Ok s' -> built n A s'.
Proof.
  intros D labels types i s s' n A F [B1 B2] H. destruct (step_any _ _ _ _ _ _ H) as (_ & pdf & u1 & E & _).
  destruct (occ_step_sees n (y_app (user s)) (OccIn pdf types (in_u i) (in_vol i) (in_vol2 i) (in_occ i)) (y_app (user s')) B1 F E) as (X & Y & _).
  split; [exact X|congruence].
Qed.

Lemma run_built : forall D labels types n A l s s', (forall i, In i l -> fair i) -> built n A s -> daily_run D labels types l s = Ok s' -> built n A s'.
Proof.
  intros D labels types n A. induction l as [|i l IH]; intros s s' F B H; cbn [daily_run] in H; [injection H as <-; exact B|].
  destruct (daily_step D labels types i s) as [s1|] eqn:E; [|discriminate]. cbn [bind] in H.
  apply (IH s1); [intros; apply F; right; assumption| |exact H]. eapply step_built; [apply F; left; reflexivity|exact B|exact E].
Qed.

Lemma iterate_keeps : forall (P : tsim daily -> Prop) step, (forall s s', P s -> step s = Ok s' -> P s') ->
  forall n s s', P s -> iterate n step s = Ok s' -> P s'.
Proof.
  intros P step K. induction n as [|n IH]; intros s s' Hs H; cbn [iterate] in H; [injection H as <-; exact Hs|].
  destruct (step s) as [s1|] eqn:E; [|discriminate]. cbn [bind] in H. apply (IH s1); [eapply K; eauto|exact H].
Qed.

(** ** Set-up *)

Definition init_in (types : list nat) (occ : option (list Z)) (i : step_in) : step_in :=
  StepIn (in_u i) (in_vol i) (in_vol2 i) (match occ with Some l => l | None => repeat 1 (length types) end).

Lemma parse_same : forall n (subs gs : list subgroup) counts ts, parse_subgroups [] n (Some subs) (Some counts) = Ok (gs, ts) -> gs = subs.
Proof.
  unfold parse_subgroups. intros n subs gs counts ts H. destruct (negb _) in H; [discriminate H|]. destruct (existsb _ _) in H; [discriminate H|].
  destruct counts; [discriminate H|]. injection H as <- _. reflexivity.
Qed.

Section Make.
  Variables (D : data) (step : option Z) (start : Z) (subs : list subgroup) (counts : list Z) (apps : list app) (related : list string)
    (own : list nat -> result (list (list bool))) (algo : profiles_algo) (sw fu : result real_loads) (p1 p2 : nat -> nat -> nat) (wait : nat -> nat -> Z)
    (occ : option (list Z)) (ins : Z -> step_in).
  Let labels := activities_labels related.
  Let made := make_daily D step start subs counts apps related own algo sw fu p1 p2 wait occ ins.

  Lemma make_parts : forall types s, made = Ok (types, s) ->
    parse_subgroups [] (Z.to_nat (zsum counts)) (Some subs) (Some counts) = Ok (subs, types) /\ (forall dt, step = Some dt -> dt = d_step D) /\
    exists owned a u1 u2, own types = Ok owned /\
      make_occupancy_appliances (map2 set_act apps (activities_inverse related)) related owned algo sw fu p1 p2 wait = Ok a /\
      update_subgroups start (Daily subs [] 0 None a) = Ok u1 /\ set_activity_pdf D labels u1 = Ok u2 /\
      t_initialize (AtTime (d_refresh D)) (fun s => daily_step D labels types (init_in types occ (ins (Time_Model.ticks s))) s) (mkT start (d_step D) 0 u2) = Ok s.
  Proof.
    unfold made, make_daily. intros types s H.
    destruct (parse_subgroups [] (Z.to_nat (zsum counts)) (Some subs) (Some counts)) as [[gs ts]|] eqn:E0; [|discriminate]. cbn [bind] in H.
    assert (gs = subs) by (eapply parse_same; exact E0).
    subst gs. destruct (Z.eqb_spec (match step with Some s => s | None => d_step D end) (d_step D)) as [Ed|]; [|discriminate]. cbn [negb] in H. rewrite Ed in H.
    destruct (own ts) as [owned|] eqn:E1; [|discriminate]. cbn [bind] in H.
    destruct (make_occupancy_appliances (map2 set_act apps (activities_inverse related)) related owned algo sw fu p1 p2 wait) as [a|] eqn:E2; [|discriminate]. cbn [bind] in H.
    unfold start_daily in H. destruct (update_subgroups start (Daily subs [] 0 None a)) as [u1|] eqn:E3; [|discriminate]. cbn [bind] in H.
    destruct (set_activity_pdf D (activities_labels related) u1) as [u2|] eqn:E4; [|discriminate]. cbn [bind] in H. cbv zeta in H.
    match type of H with bind ?x _ = _ => destruct x as [s1|] eqn:E5; [|discriminate] end. cbn [bind] in H. injection H as -> ->.
    split; [reflexivity|]. split; [intros dt ->; exact Ed|]. exists owned, a, u1, u2. repeat (split; [assumption|]). exact E5.
  Qed.

  Hypothesis sizes : length related = length apps.
  Hypothesis own_shape : forall types owned, own types = Ok owned -> shaped (length types) (length apps) owned.
  Hypothesis fair_ins : forall k, fair (ins k).

  Lemma make_app : forall types owned a, own types = Ok owned ->
    make_occupancy_appliances (map2 set_act apps (activities_inverse related)) related owned algo sw fu p1 p2 wait = Ok a ->
    simulates (length types) a /\ forall j b a0 rel, at_ (s_apps a) j b -> at_ apps j a0 -> at_ related j rel ->
      ap_prob b = ap_prob a0 /\ ap_off b = ap_off a0 /\ at_ labels (ap_act b) rel.
  Proof.
    intros types owned a E1 E2. specialize (own_shape _ _ E1).
    assert (La : length (map2 set_act apps (activities_inverse related)) = length apps).
    { rewrite map2_length. unfold activities_inverse. rewrite map_length. lia. }
    split.
    - apply (occupancy_left _ _ _ _ _ _ _ _ _ (length types) ltac:(rewrite La; exact sizes) ltac:(rewrite La; exact own_shape) a E2).
    - intros j b a0 rel Hb Ha Hr. unfold make_occupancy_appliances, make_with in E2.
      destruct (sample_real_load_profiles _ _ _ _ _ _ _ _) as [L|]; [|discriminate]. cbn [bind] in E2. injection E2 as <-. cbn [s_apps] in Hb.
      apply at_map2 in Hb. destruct Hb as (b1 & v & Hb1 & _ & ->). apply at_map2 in Hb1. destruct Hb1 as (a1 & k & Ha1 & Hk & ->).
      assert (a1 = a0) by (unfold at_ in *; congruence). subst a1. destruct (label_at related j rel Hr) as (k' & Hk' & Hl).
      assert (k' = k) by (unfold at_ in *; congruence). subst k'. split; [reflexivity|]. split; [reflexivity|]. exact Hl.
  Qed.

  (** What is known of any new simulator. *)
  Lemma make_any : forall types s, made = Ok (types, s) -> 0 < d_step D -> 0 <= d_refresh D < us_per_day ->
    now s = start /\ step_size s = d_step D /\ (exists R, latest_occurrence (d_refresh D) start R /\ whole_steps (d_step D) R start (Time_Model.ticks s)) /\
    exists A, built (length types) A s /\ forall j b a0 rel, at_ A j b -> at_ apps j a0 -> at_ related j rel ->
      ap_prob b = ap_prob a0 /\ ap_off b = ap_off a0 /\ at_ labels (ap_act b) rel.
  Proof.
    intros types s H Hd Hr. destruct (make_parts types s H) as (_ & _ & owned & a & u1 & u2 & E1 & E2 & E3 & E4 & E5).
    destruct (make_app types owned a E1 E2) as [Sa Aa].
    assert (Adv : advances daily (fun s => daily_step D labels types (init_in types occ (ins (Time_Model.ticks s))) s)).
    { intros x y X. apply step_any in X. tauto. }
    destruct (t_initialize_spec _ _ (AtTime (d_refresh D)) (mkT start (d_step D) 0 u2) _ Adv Hd ltac:(intros t [= <-]; exact Hr) E5) as (N1 & N2 & R & L & Le & W). cbn [now step_size resolves] in *.
    split; [exact N1|]. split; [exact N2|]. split; [exists R; auto|]. exists (s_apps a). split; [|exact Aa].
    assert (Ya : y_app u2 = a).
    { apply set_pdf_ok in E4. destruct E4 as (_ & _ & _ & X & _). unfold update_subgroups in E3. destruct (mapM _ _); [|discriminate]. cbn [bind] in E3. injection E3 as <-. exact X. }
    unfold t_initialize in E5. destruct (init_datetime _ _) as [d|] eqn:Ed; [|discriminate]. cbn [bind] in E5. cbv zeta in E5.
    destruct (step_size _ =? 0); [discriminate|]. destruct (_ <? 0); [discriminate|].
    eapply (iterate_keeps (built (length types) (s_apps a)) _ _ _ _ _ _ E5). Unshelve.
    - intros x y B X. refine (step_built _ _ _ _ _ _ _ _ _ B X). intros h j. apply fair_ins.
    - split; cbn [user]; rewrite Ya; auto.
  Qed.

  (** The invariant after the initialization. *)
  Lemma make_inv : forall types s, (forall i g, at_ subs i g -> is_dict g) -> aligned D (d_step D) start -> made = Ok (types, s) ->
    now s = start /\ step_size s = d_step D /\ inv D labels subs (d_step D) start (user s).
  Proof.
    intros types s Hs (Hd & Hm & Ht & Hr & Hr10 & Hg & Hst) H. destruct (make_parts types s H) as (_ & _ & owned & a & u1 & u2 & E1 & E2 & E3 & E4 & E5).
    assert (Adv : advances daily (fun s => daily_step D labels types (init_in types occ (ins (Time_Model.ticks s))) s)).
    { intros x y X. apply step_any in X. tauto. }
    destruct (t_initialize_spec _ _ (AtTime (d_refresh D)) (mkT start (d_step D) 0 u2) _ Adv Hd ltac:(intros t [= <-]; exact Hr) E5) as (N1 & N2 & _). cbn [now step_size] in *.
    split; [exact N1|]. split; [exact N2|]. rewrite <- N1.
    unfold t_initialize in E5. destruct (init_datetime _ _) as [d|] eqn:Ed; [|discriminate]. cbn [bind] in E5. cbv zeta in E5. cbn [now step_size user] in *.
    destruct (init_datetime_resolves (AtTime (d_refresh D)) _ _ ltac:(intros t [= <-]; exact Hr) Ed) as [(L1 & L2 & L3) _].
    destruct (_ =? 0); [discriminate|]. destruct (_ <? 0); [discriminate|].
    assert (Gd : (d_step D | start - d)). { apply (since_grid (d_refresh D) (d_step D)); auto. }
    assert (M0 : (start - d) mod d_step D = 0) by (apply Z.mod_divide; [lia|exact Gd]). rewrite M0, Z.add_0_r in E5.
    assert (D0 : 0 <= d).
    { destruct (Z.le_gt_cases 0 d) as [C|C]; [exact C|exfalso]. assert (X : (d + us_per_day) mod us_per_day = d_refresh D).
      { rewrite <- L2. rewrite <- (Z.mul_1_l us_per_day) at 1. apply Z.mod_add. unfold us_per_day. lia. }
      specialize (L3 _ X ltac:(lia)). unfold us_per_day in *. lia. }
    set (P := fun x : tsim daily => step_size x = d_step D /\ 0 <= now x /\ (d_step D | now x - d_refresh D) /\ inv D labels subs (d_step D) (now x) (user x)).
    assert (P s); [|unfold P in *; tauto]. eapply (iterate_keeps P _ _ _ _ _ _ E5). Unshelve.
    - intros x y (P1 & P2 & P3 & P4) X. destruct (step_ok D labels types subs (d_step D) Hs Hd Hm Ht Hr Hr10 _ x y P1 P2 P3 P4 X) as ((Q1 & Q2 & Q3) & Q4 & _).
      rewrite P1 in Q1. unfold P. split; [congruence|]. split; [lia|]. split; [|exact Q4]. rewrite Q1.
      replace (now x + d_step D - d_refresh D) with ((now x - d_refresh D) + d_step D) by lia. apply Z.divide_add_r; [exact P3|apply Z.divide_refl].
    - split; [reflexivity|]. cbn [now user]. split; [exact D0|]. split; [apply (occurrence_grid (d_refresh D) (d_step D)); auto|].
      left. split; [exact L2|]. apply set_pdf_ok in E4. destruct E4 as (X & _). rewrite X.
      destruct (update_ok subs start (Daily subs [] 0 None a) u1 ltac:(unfold us_per_day in *; lia) ltac:(apply (origin_subs D subs Hs Hr)) E3) as (Y & _). eapply dated_origin. exact Y.
  Qed.
End Make.

(** ** Starts *)

Definition by_content (D : data) : Prop := forall g g', is_dict g -> is_dict g' -> (forall key, agree g g' key) -> d_load D g = d_load D g'.

Lemma dated_same : forall g t a b, dated g t a -> dated g t b -> forall key, agree a b key.
Proof.
  intros g t a b (A1 & A2 & A3 & A4) (B1 & B2 & B3 & B4) key v. destruct (string_dec key "weekday") as [->|Nw].
  - pose proof (A3 v). pose proof (B3 v). unfold has in *. tauto.
  - destruct (string_dec key "quarter") as [->|Nq].
    + split; intro X; exfalso; [apply (A4 v)|apply (B4 v)]; exact X.
    + pose proof (A2 key Nw Nq v). pose proof (B2 key Nw Nq v). tauto.
Qed.

Lemma in_slot_fun : forall D dt g lab t a b, by_content D -> in_slot D dt g lab t a -> in_slot D dt g lab t b -> a = b.
Proof.
  intros D dt g lab t a b C (R & g1 & d1 & q1 & L1 & D1 & E1 & F1 & A1) (R' & g2 & d2 & q2 & L2 & D2 & E2 & F2 & A2).
  assert (R' = R) by (eapply latest_fun; eauto). subst R'. pose proof (C g1 g2 (proj1 D1) (proj1 D2) (dated_same _ _ _ _ D1 D2)) as X.
  assert (d1 = d2) by congruence. subst d2. assert (q1 = q2) by congruence. subst q2. unfold at_ in *. congruence.
Qed.

(** Two sets of profiles in force at the same time are equal. *)
Lemma in_force_fun : forall D dt subs labels t p q, by_content D -> in_force D dt subs labels t p -> in_force D dt subs labels t q -> p = q.
Proof.
  assert (Ext : forall A (l m : list A), length l = length m -> (forall i x y, at_ l i x -> at_ m i y -> x = y) -> l = m).
  { intros A. induction l as [|x l IH]; intros [|y m] L H; try discriminate; [reflexivity|]. f_equal; [apply (H 0%nat); reflexivity|].
    apply IH; [simpl in L; lia|]. intros i a b. exact (H (S i) a b). }
  intros D dt subs labels t p q C [L1 F1] [L2 F2]. apply Ext; [congruence|]. intros i a b Ha Hb.
  assert (Li : (i < length subs)%nat) by (rewrite <- L1; eapply at_lt; exact Ha). destruct (lt_at _ _ _ Li) as [g Hg].
  destruct (F1 i g a Hg Ha) as [La Fa]. destruct (F2 i g b Hg Hb) as [Lb Fb]. apply Ext; [congruence|]. intros j x y Hx Hy.
  assert (Lj : (j < length labels)%nat) by (rewrite <- La; eapply at_lt; exact Hx). destruct (lt_at _ _ _ Lj) as [lab Hl].
  eapply in_slot_fun; [exact C|eapply Fa|eapply Fb]; eauto.
Qed.

Section Start.
  Variables (D : data) (dt t : Z) (subs : list subgroup) (related : list string) (pdf : list (list (list Q))) (types : list nat) (i : step_in).
  Let labels := activities_labels related.
  Let oi := OccIn pdf types (in_u i) (in_vol i) (in_vol2 i) (in_occ i).
  Hypothesis force : in_force D dt subs labels t pdf.
  Variables (s s' : asim) (h j k : nat) (v : view) (g : subgroup) (rel : string) (a : app).
  Hypothesis done : occ_step s pdf types (in_u i) (in_vol i) (in_vol2 i) (in_occ i) = Ok s'.
  Hypothesis view_v : sees s h j v.
  Hypothesis type_h : at_ types h k.
  Hypothesis group_k : at_ subs k g.
  Hypothesis rel_j : at_ related j rel.
  Hypothesis prob_a : ap_prob (v_app v) = ap_prob a.
  Hypothesis act_a : at_ labels (ap_act (v_app v)) rel.

  Lemma activity_slot : forall q, activity_prob oi h (v_app v) q -> exists n by_occ, at_ (in_occ i) h n /\ 0 <= n /\ in_slot D dt g rel t by_occ /\ at_ by_occ (Z.to_nat n) q.
  Proof.
    intros q (k' & n & acts & bo & H1 & H2 & H3 & H4 & H5 & H6). cbn [i_types i_occ i_pdf oi] in *. assert (k' = k) by (unfold at_ in *; congruence). subst k'.
    destruct force as [_ F]. destruct (F k g acts group_k H4) as [_ F2]. exists n, bo. repeat (split; [assumption|]). split; [eapply F2; eauto|exact H6].
  Qed.

  Lemma may_starts : may_start oi h j v -> starts D dt t g rel a i h j v.
  Proof.
    intros (M1 & M2 & M3 & q & Hq & Lt). destruct (activity_slot q Hq) as (n & bo & A1 & A2 & A3 & A4).
    split; [exact M1|]. split; [exact M2|]. split; [exact M3|]. exists n, bo, q. repeat (split; [assumption|]). rewrite <- prob_a. exact Lt.
  Qed.

  Lemma starts_may : by_content D -> starts D dt t g rel a i h j v -> may_start oi h j v.
  Proof.
    intros C (M1 & M2 & M3 & n & bo & q & A1 & A2 & A3 & A4 & Lt). split; [exact M1|]. split; [exact M2|]. split; [exact M3|].
    assert (E := done). unfold occ_step in E. destruct (Nat.eqb_spec (length (in_occ i)) (length (s_left s))) as [El|]; [|discriminate]. cbn [negb] in E.
    destruct (get_switchon_probs s pdf types (in_occ i)) as [P|] eqn:EP; [|discriminate].
    destruct (switchon_probs_at s oi h j v P EP El view_v) as (q' & Hq' & _). destruct (activity_slot q' Hq') as (n' & bo' & B1 & B2 & B3 & B4).
    assert (n' = n) by (unfold at_ in *; congruence). subst n'. assert (bo' = bo) by (eapply in_slot_fun; eauto). subst bo'.
    assert (q' = q) by (unfold at_ in *; congruence). subst q'. exists q. split; [exact Hq'|]. rewrite prob_a. exact Lt.
  Qed.
End Start.

(** ** Failures of a step *)

Lemma set_pdf_empty : forall D labels u u', set_activity_pdf D labels u = Ok u' -> y_slices u' = [] ->
  exists g d lab, In g (y_groups u) /\ d_load D g = Ok d /\ In lab labels /\ dget String.eqb d lab = Some [].
Proof.
  unfold set_activity_pdf. intros D labels u u' H E. destruct (mapM (d_load D) (y_groups u)) as [dicts|] eqn:E1; [|discriminate]. cbn [bind] in H.
  destruct (mapM (profiles_of labels) dicts) as [probs|] eqn:E2; [|discriminate]. cbn [bind] in H.
  destruct (by_time probs) as [slices|] eqn:E3; [|discriminate]. cbn [bind] in H. injection H as <-. cbn [y_slices] in E. subst slices.
  unfold by_time in E3. destruct probs as [|[|p rest] gs]; try discriminate. match type of E3 with (if ?c then _ else _) = _ => destruct c end; [|discriminate].
  destruct (mapM_ok _ _ _ _ _ E3) as [L _]. rewrite seq_length in L. destruct p as [|row p]; [|discriminate L].
  destruct dicts as [|d dicts]; [discriminate|]. cbn [mapM] in E2. destruct (profiles_of labels d) as [ps|] eqn:E4; [|discriminate]. cbn [bind] in E2.
  destruct (mapM (profiles_of labels) dicts); [|discriminate]. cbn [bind] in E2. injection E2 as -> _.
  destruct (y_groups u) as [|g gr]; [discriminate|]. cbn [mapM] in E1. destruct (d_load D g) as [d'|] eqn:E5; [|discriminate]. cbn [bind] in E1.
  destruct (mapM (d_load D) gr); [|discriminate]. cbn [bind] in E1. injection E1 as -> _.
  unfold profiles_of in E4. destruct labels as [|lab labels]; [discriminate|]. cbn [mapM] in E4. destruct (dget String.eqb d lab) as [p|] eqn:E6; [|discriminate]. cbn [bind] in E4.
  destruct (mapM _ labels); [|discriminate]. cbn [bind] in E4. injection E4 as -> _. exists g, d, lab. simpl. auto.
Qed.

Section Errors.
  Variables (D : data) (labels : list string) (types : list nat) (subs : list subgroup) (dt : Z).
  Hypothesis subs_dict : forall i g, at_ subs i g -> is_dict g.
  Hypothesis dt_pos : 0 < dt.
  Hypothesis dt_min : (minutes 1 | dt).
  Hypothesis dt_ten : (dt | minutes 10).
  Hypothesis r_day : 0 <= d_refresh D < us_per_day.
  Hypothesis r_ten : (minutes 10 | d_refresh D).

  Lemma body_fails : forall i t u e, (dt | t - d_refresh D) -> ready_at D labels subs dt t u -> step_body types i t u = Err e ->
    e = AssertionError /\ length (in_occ i) <> length types \/
    y_slices u = [] /\ e = StopIteration \/
    exists pdf, in_force D dt subs labels t pdf /\ occ_step (y_app u) pdf types (in_u i) (in_vol i) (in_vol2 i) (in_occ i) = Err e.
  Proof.
    intros i t u e G (R & L & R0 & [A1 A2] & T & P) H. unfold step_body in H.
    destruct (Nat.eqb_spec (length (in_occ i)) (length types)) as [Lo|Lo]; cbn [negb] in H; [right|left; split; [congruence|exact Lo]]. cbv zeta in P.
    assert (F : forall pdf, at_ (y_slices u) (Z.to_nat ((t - R) / minutes 10 mod Z.of_nat (length (y_slices u)))) pdf -> in_force D dt subs labels t pdf).
    { intros pdf Hp. destruct (T _ _ Hp) as [T1 T2]. split; [congruence|]. intros k g acts Hg Ha.
      assert (Lk : (k < length (y_groups u))%nat) by (rewrite A1; eapply at_lt; exact Hg). destruct (lt_at _ _ _ Lk) as [g' Hg'].
      destruct (T2 k g' acts Hg' Ha) as [T3 T4]. split; [exact T3|]. intros j lab bo Hl Hb. destruct (T4 j lab bo Hl Hb) as (d & p & Ed & Ep & Lp & Hat).
      exists R, g', d, p. split; [exact L|]. split; [apply (A2 k); assumption|]. split; [exact Ed|]. split; [exact Ep|]. rewrite Lp. exact Hat. }
    destruct (Z.eqb_spec (minute_at t mod 10) 0) as [E|E].
    - unfold next_slice in H. destruct (nth_error (y_slices u) (y_next u)) as [x|] eqn:Ex; cbn [bind] in H.
      + right. exists x. cbn [y_current y_app] in H. split; [apply F; rewrite <- P; exact Ex|]. destruct (occ_step _ _ _ _ _ _ _); cbn [bind] in H; congruence.
      + left. split; [|congruence]. apply nth_error_None in Ex. destruct (y_slices u) as [|y l] eqn:Ey; [reflexivity|exfalso]. rewrite P in Ex.
        assert (B := Z.mod_pos_bound ((t - R) / minutes 10) (Z.of_nat (length (y :: l))) ltac:(cbn [length]; lia)). lia.
    - cbn [bind] in H. right. destruct P as (P1 & P2 & pdf & P3 & P4). rewrite P3 in H. exists pdf. split; [apply F; exact P4|].
      destruct (occ_step _ _ _ _ _ _ _); cbn [bind] in H; congruence.
  Qed.

  Lemma step_fails : forall i s e, step_size s = dt -> 0 <= now s -> (dt | now s - d_refresh D) -> inv D labels subs dt (now s) (user s) -> daily_step D labels types i s = Err e ->
    e = AssertionError /\ length (in_occ i) <> length types \/
    now s mod us_per_day = d_refresh D /\ on_refresh D labels (now s) dt (user s) = Err e \/
    e = StopIteration /\ (exists g d lab, d_load D g = Ok d /\ In lab labels /\ dget String.eqb d lab = Some []) \/
    exists pdf, in_force D dt subs labels (now s) pdf /\ occ_step (y_app (user s)) pdf types (in_u i) (in_vol i) (in_vol2 i) (in_occ i) = Err e.
  Proof.
    intros i s e Hd Ht G I H. unfold daily_step, decorated, time_of_day in H. rewrite Hd in H.
    destruct (Z.eqb_spec (now s mod us_per_day) (d_refresh D)) as [E|E].
    - unfold call_back in H. destruct (on_refresh D labels (now s) dt (user s)) as [u1|e1] eqn:E1; cbn [bind] in H; [|right; left; split; [exact E|congruence]].
      destruct (ready_refresh D labels subs dt dt_pos r_ten (now s) (user s) u1 Ht E (inv_origin _ _ _ _ _ _ I) E1) as [R1 R2].
      unfold tstep in H. cbn [user now] in H. destruct (step_body types i (now s) u1) as [u2|e2] eqn:E2; [discriminate|]. cbn [bind] in H. injection H as ->.
      destruct (body_fails i (now s) u1 e G R1 E2) as [B|[[B1 B2]|B]]; [left; exact B| |rewrite R2 in B; right; right; right; exact B].
      right; right; left. split; [exact B2|]. unfold on_refresh in E1. destruct (update_subgroups _ _) as [u3|]; [|discriminate]. cbn [bind] in E1.
      destruct (set_pdf_empty _ _ _ _ E1 B1) as (g & d & lab & _ & X1 & X2 & X3). eauto 10.
    - cbn [bind] in H. destruct I as [[C _]|C]; [contradiction|]. unfold tstep in H.
      destruct (step_body types i (now s) (user s)) as [u2|e2] eqn:E2; [discriminate|]. cbn [bind] in H. injection H as ->.
      destruct (body_fails i (now s) (user s) e G (ready_running D labels subs dt dt_min r_ten _ _ G C) E2) as [B|[[B1 B2]|B]]; [left; exact B| |right; right; right; exact B].
      exfalso. destruct C as (R & _ & _ & _ & _ & _ & N & _). rewrite B1 in N. simpl in N. lia.
  Qed.
End Errors.

(** ** Subgroups in any run *)

Lemma step_origin : forall D labels types subs i s s', 0 <= now s -> 0 < step_size s -> origin subs (y_groups (user s)) -> daily_step D labels types i s = Ok s' ->
  origin subs (y_groups (user s')).
Proof.
  intros D labels types subs i s s' Ht Hd O H. destruct (step_any _ _ _ _ _ _ H) as (_ & pdf & u1 & _ & _ & E & C). rewrite <- E.
  destruct (_ =? _); [|subst u1; exact O]. unfold on_refresh in C. destruct (update_subgroups _ _) as [u2|] eqn:E2; [|discriminate]. cbn [bind] in C.
  destruct (update_ok subs (now s + step_size s) (user s) _ ltac:(lia) O E2) as (A & _). apply set_pdf_ok in C. destruct C as (-> & _). eapply dated_origin. exact A.
Qed.

Lemma run_origin : forall D labels types subs l s s', 0 <= now s -> 0 < step_size s -> origin subs (y_groups (user s)) -> daily_run D labels types l s = Ok s' ->
  origin subs (y_groups (user s')).
Proof.
  intros D labels types subs. induction l as [|i l IH]; intros s s' Ht Hd O H; cbn [daily_run] in H; [injection H as <-; exact O|].
  destruct (daily_step D labels types i s) as [s1|] eqn:E; [|discriminate]. cbn [bind] in H. pose proof (step_advances _ _ _ _ _ _ E) as (N1 & N2 & _).
  apply (IH s1); [lia|lia| |exact H]. eapply step_origin; eauto.
Qed.

Lemma run_unaligned : forall D labels types l s s', 0 < step_size s -> (step_size s | us_per_day) -> ~ (step_size s | now s - d_refresh D) -> 0 <= d_refresh D < us_per_day ->
  daily_run D labels types l s = Ok s' -> y_groups (user s') = y_groups (user s).
Proof.
  intros D labels types. induction l as [|i l IH]; intros s s' Hd Hday N Hr H; cbn [daily_run] in H; [injection H as <-; reflexivity|].
  destruct (daily_step D labels types i s) as [s1|] eqn:E; [|discriminate]. cbn [bind] in H. destruct (step_any _ _ _ _ _ _ E) as ((N1 & N2 & _) & pdf & u1 & _ & _ & Eg & C).
  rewrite (IH s1 s'); [|lia|rewrite N2; exact Hday| |exact Hr|exact H].
  - rewrite <- Eg. destruct (Z.eqb_spec (now s mod us_per_day) (d_refresh D)) as [Em|]; [exfalso|congruence]. apply N. rewrite <- Em.
    assert (X := Z.div_mod (now s) us_per_day ltac:(unfold us_per_day; lia)). replace (now s - now s mod us_per_day) with (us_per_day * (now s / us_per_day)) by lia.
    apply Z.divide_mul_l. exact Hday.
  - rewrite N1, N2. intro C2. apply N. replace (now s - d_refresh D) with ((now s + step_size s - d_refresh D) - step_size s) by lia.
    apply Z.divide_sub_r; [exact C2|apply Z.divide_refl].
Qed.

(** ** Profiles in any run *)

Section Any.
  Variables (D : data) (labels : list string) (types : list nat) (subs : list subgroup).

  Definition known (pdf : list (list (list Q))) : Prop := length pdf = length subs /\ forall i g acts, at_ subs i g -> at_ pdf i acts -> length acts = length labels /\
    forall j lab by_occ, at_ labels j lab -> at_ acts j by_occ -> some_slot D g lab by_occ.

  Definition fed (u : daily) : Prop := (forall k pdf, at_ (y_slices u) k pdf -> known pdf) /\ (forall pdf, y_current u = Some pdf -> known pdf).

  Lemma table_known : forall t gs slices, all_dated subs t gs -> table D labels gs slices -> forall k pdf, at_ slices k pdf -> known pdf.
  Proof.
    intros t gs slices [A1 A2] T k pdf Hp. destruct (T k pdf Hp) as [T1 T2]. split; [congruence|]. intros i g acts Hg Ha.
    assert (Li : (i < length gs)%nat) by (rewrite A1; eapply at_lt; exact Hg). destruct (lt_at _ _ _ Li) as [g' Hg'].
    destruct (T2 i g' acts Hg' Ha) as [T3 T4]. split; [exact T3|]. intros j lab bo Hl Hb. destruct (T4 j lab bo Hl Hb) as (d & p & Ed & Ep & _ & Hat).
    exists t, g', d, p, k. split; [apply (A2 i); assumption|]. auto.
  Qed.

  Lemma fed_step : forall i s s', 0 <= now s -> 0 < step_size s -> origin subs (y_groups (user s)) -> fed (user s) -> daily_step D labels types i s = Ok s' ->
    fed (user s') /\ exists pdf, known pdf /\ occ_step (y_app (user s)) pdf types (in_u i) (in_vol i) (in_vol2 i) (in_occ i) = Ok (y_app (user s')).
  Proof.
    intros i s s' Ht Hd O F H. unfold daily_step, decorated in H.
    assert (B : forall u u', fed u -> step_body types i (now s) u = Ok u' -> fed u' /\
      exists pdf, known pdf /\ occ_step (y_app u) pdf types (in_u i) (in_vol i) (in_vol2 i) (in_occ i) = Ok (y_app u')).
    { intros u u' [F1 F2] E. unfold step_body in E. destruct (negb _) in E; [discriminate E|]. destruct (_ =? 0) in E.
      - unfold next_slice in E. destruct (nth_error (y_slices u) (y_next u)) as [x|] eqn:Ex; [|discriminate]. cbn [bind y_current y_app y_groups y_slices y_next] in E.
        assert (K : known x) by (eapply F1; exact Ex).
        destruct (occ_step _ _ _ _ _ _ _) as [a|] eqn:Ea in E; [|discriminate]. cbn [bind] in E. injection E as <-. cbn [y_app]. split.
        + split; cbn [y_slices y_current]; [exact F1|]. intros pdf [= <-]. exact K.
        + exists x. auto.
      - cbn [bind] in E. destruct (y_current u) as [x|] eqn:Ex; [|discriminate]. assert (K : known x) by (apply F2; reflexivity).
        destruct (occ_step _ _ _ _ _ _ _) as [a|] eqn:Ea in E; [|discriminate]. cbn [bind] in E. injection E as <-. cbn [y_app]. split.
        + split; cbn [y_slices y_current]; [exact F1|]. intros pdf [= <-]. exact K.
        + exists x. auto. }
    destruct (_ =? _) in H.
    - unfold call_back in H. destruct (on_refresh D labels (now s) (step_size s) (user s)) as [u1|] eqn:E1; [|discriminate]. cbn [bind] in H.
      unfold tstep in H. cbn [user now] in H. destruct (step_body types i (now s) u1) as [u2|] eqn:E2; [|discriminate]. cbn [bind] in H. injection H as <-. cbn [user].
      destruct (refresh_ok D labels subs (step_size s) Hd (now s) (user s) u1 Ht O E1) as (A1 & A2 & _ & A4 & A5). rewrite <- A5. apply B; [|exact E2]. split.
      + eapply table_known; eauto.
      + rewrite A4. apply F.
    - cbn [bind] in H. unfold tstep in H. destruct (step_body types i (now s) (user s)) as [u2|] eqn:E2; [|discriminate]. cbn [bind] in H. injection H as <-. cbn [user].
      apply B; [exact F|exact E2].
  Qed.

  Definition feeds (s : tsim daily) : Prop := 0 <= now s /\ 0 < step_size s /\ origin subs (y_groups (user s)) /\ fed (user s).

  Lemma feeds_step : forall i s s', feeds s -> daily_step D labels types i s = Ok s' -> feeds s'.
  Proof.
    intros i s s' (F1 & F2 & F3 & F4) H. pose proof (step_advances _ _ _ _ _ _ H) as (M1 & M2 & _). split; [lia|]. split; [lia|]. split; [eapply step_origin; eauto|].
    apply (fed_step i s s' F1 F2 F3 F4 H).
  Qed.

  Lemma feeds_run : forall l s s', feeds s -> daily_run D labels types l s = Ok s' -> feeds s'.
  Proof.
    induction l as [|i l IH]; intros s s' F H; cbn [daily_run] in H; [injection H as <-; exact F|].
    destruct (daily_step D labels types i s) as [s1|] eqn:E; [|discriminate]. cbn [bind] in H. apply (IH s1); [eapply feeds_step; eauto|exact H].
  Qed.
End Any.

Lemma origin_self : forall subs, (forall i g, at_ subs i g -> is_dict g) -> origin subs subs.
Proof.
  intros subs P. split; [reflexivity|]. intros x y y' A B. unfold at_ in *. assert (y' = y) by congruence. subst y'. split; [apply (P x); exact A|]. intros kk _ _ z. tauto.
Qed.

Lemma make_feeds : forall c types s, proper c -> 0 < d_step (c_data c) -> us_per_day <= c_start c -> 0 <= d_refresh (c_data c) < us_per_day -> new c = Ok (types, s) ->
  feeds (c_data c) (c_labels c) (c_subs c) s.
Proof.
  intros c types s0 (P1 & _) Hd Hs Hr N.
  destruct (make_parts _ _ _ _ _ _ _ _ _ _ _ _ _ _ _ _ types s0 N) as (_ & _ & owned & a & u1 & u2 & _ & _ & E3 & E4 & E5).
  destruct (update_ok (c_subs c) (c_start c) (Daily (c_subs c) [] 0 None a) u1 ltac:(unfold us_per_day in Hs; lia) (origin_self _ P1) E3) as (U & _ & _ & U4 & _).
  apply set_pdf_ok in E4. destruct E4 as (X1 & _ & X3 & _ & X5).
  unfold t_initialize in E5. destruct (init_datetime _ _) as [d|] eqn:Ed; [|discriminate]. cbn [bind] in E5. cbv zeta in E5. cbn [now step_size user] in *.
  destruct (init_datetime_resolves (AtTime (d_refresh (c_data c))) _ _ ltac:(intros t [= <-]; exact Hr) Ed) as [(L1 & L2 & L3) _].
  destruct (_ =? 0); [discriminate|]. destruct (_ <? 0); [discriminate|].
  assert (D0 : 0 <= d).
  { destruct (Z.le_gt_cases 0 d) as [C|C]; [exact C|exfalso]. assert (Y : (d + us_per_day) mod us_per_day = d_refresh (c_data c)).
    { rewrite <- L2. rewrite <- (Z.mul_1_l us_per_day) at 1. apply Z.mod_add. unfold us_per_day. lia. }
    specialize (L3 _ Y ltac:(clear - C L1 Hs; unfold us_per_day in *; lia)). unfold us_per_day in *. lia. }
  refine (iterate_keeps (feeds (c_data c) (c_labels c) (c_subs c)) _ _ _ _ _ _ E5); [intros x y Q1 Q2; eapply feeds_step; eauto|].
  split; [|split; [exact Hd|]]; cbn [now user].
  - assert (B := Z.mod_pos_bound (c_start c - d) (d_step (c_data c)) Hd). lia.
  - split; [rewrite X1; eapply dated_origin; exact U|]. split.
    + apply (table_known _ _ _ (c_start c) (y_groups u1)); [exact U|exact X5].
    + rewrite X3, U4. discriminate.
Qed.
