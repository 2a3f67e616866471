(** * C205, C206: the older appliance simulator. *)

From Coq Require Import String List ZArith QArith Qfield Bool Arith Lia Lqa.
From Coq Require Import ZifyBool ZifyNat.
From Verif Require Import Prelude PreludeFacts SpecBase SpecBaseFacts Sampling_Model Appliance_Model Appliance_Spec Appliance_Proofs Matrix_Proofs Light_Spec Light_Proofs Atus_LawProofs.
From Verif Require Import Wash_Model Wash_Spec Wash_Proofs.
Import ListNotations.

Open Scope string_scope.
Open Scope list_scope.
Open Scope Q_scope.

(** ** C205: switching and power *)

(** A simulator is created from a dictionary that has the keys of the newer simulators. *)
Theorem C205_created : forall keys,
  (new_appliances (Dictionary keys) Basic = Created <-> In "equipped_prob" keys /\ In "number" keys /\ In "type" keys)%string /\
  (new_appliances (Dictionary keys) AllApps = Created <-> In "number" keys /\ In "type" keys)%string /\
  new_appliances (Dictionary keys) Correlated = Failed NotImplementedError /\
  new_appliances (Dictionary keys) Unknown_algo = Failed ValueError.
Proof.
  intro keys. assert (B : forall k, existsb (String.eqb k) keys = true <-> In k keys).
  { intro k. rewrite existsb_exists. split; [intros (x & Hx & E); apply String.eqb_eq in E; congruence|intro H; exists k; split; [exact H|apply String.eqb_refl]]. }
  unfold new_appliances, needs. cbn [forallb]. rewrite !andb_true_r.
  split; [|split; [|split; reflexivity]].
  - rewrite <- !B. destruct (existsb (String.eqb "equipped_prob") keys), (existsb (String.eqb "number") keys), (existsb (String.eqb "type") keys); simpl; split; intros; try discriminate; intuition discriminate.
  - rewrite <- !B. destruct (existsb (String.eqb "number") keys), (existsb (String.eqb "type") keys); simpl; split; intros; try discriminate; intuition discriminate.
Qed.
Print Assumptions C205_created.

(** "A simulator can be created with the data sets it names": the dictionaries read from them
    lack these keys, for any way of sampling. *)
Theorem C205_named_data : forall algo, exists e, new_appliances (Named "CREST") algo = Failed e /\ new_appliances (Named "GTOU") algo = Failed e.
Proof. intros []; eexists; split; reflexivity. Qed.
Print Assumptions C205_named_data.
Theorem C205_created_refuted : exists e, new_appliances (Named "CREST") Basic = Failed e.
Proof. exists KeyError. reflexivity. Qed.
Print Assumptions C205_created_refuted.

(** Another name is refused. *)
Theorem C205_other_name : forall n algo, (n <> "CREST" -> n <> "GTOU" -> new_appliances (Named n) algo = Plain_exception)%string.
Proof. intros n algo H1 H2. unfold new_appliances. apply String.eqb_neq in H1, H2. rewrite H1, H2. reflexivity. Qed.
Print Assumptions C205_other_name.

(** Switching on: the appliances asked for start, all others are left alone. *)
Theorem C205_switch_on : forall w s u idx s' n, laid_out n s -> old_switch_on w s u idx = Ok s' ->
  laid_out n s' /\ z_apps s' = z_apps s /\ z_own s' = z_own s /\
  forall h j a c, at_ (z_apps s) j a -> at2 (z_cells s) h j c ->
    (~ In (h, j) idx -> at2 (z_cells s') h j c) /\
    (In (h, j) idx -> exists c', at2 (z_cells s') h j c' /\ started w a (u h j) c').
Proof.
  intros w s u idx s' n [L1 L2] H. unfold old_switch_on in H.
  destruct (assign (mean_cell s) idx s) as [s1|] eqn:E1; simpl in H; [|discriminate].
  destruct (assign_ok _ _ _ _ E1) as (A1 & A2 & A3 & A4 & A5). destruct (assign_ok _ _ _ _ H) as (B1 & B2 & B3 & B4 & B5).
  split; [split; [rewrite B1, B2, A1, A2; exact L1|rewrite B1, A1; auto]|]. split; [congruence|]. split; [congruence|].
  intros h j a c Ha Hc.
  assert (F : forall p, In p (filter (fun k => match nth_error (z_apps s) (snd k) with Some a => is_water w a | None => false end) idx) <-> In p idx /\
     match nth_error (z_apps s) (snd p) with Some a => is_water w a | None => false end = true) by (intro p; apply filter_In).
  unfold at_ in Ha. specialize (F (h, j)). cbn [snd] in F. rewrite Ha in F. split; intro Hin.
  - apply B4; [rewrite F; tauto|]. apply A4; assumption.
  - destruct (is_water w a) eqn:Ew.
    + destruct (B3 h j (proj2 F (conj Hin eq_refl))) as (c' & C1 & C2). exists c'. split; [exact C2|]. apply (water_cell_started w s u h j a c' Ha); [now apply is_water_in|exact C1].
    + destruct (A3 h j Hin) as (c' & C1 & C2). exists c'. split; [apply B4; [rewrite F; intros [_ X]; discriminate|exact C2]|].
      apply (mean_cell_started w s u h j a c' Ha); [rewrite <- is_water_in; congruence|exact C1].
Qed.
Print Assumptions C205_switch_on.

(** It works for places inside of the arrays, with a distribution and volumes for every label
    and fixtures with a flow. *)
Theorem C205_switch_on_works : forall w s u idx n, laid_out n s -> (forall h j, In (h, j) idx -> (h < n)%nat /\ (j < List.length (z_apps s))%nat) ->
  List.length (us_cdfs w) = List.length (us_labels w) -> (forall cdf, In cdf (us_cdfs w) -> cdf <> [] /\ (List.length cdf <= List.length (us_litres w))%nat) ->
  (forall a, In a (z_apps s) -> In (wa_name a) (us_labels w) -> ~ wa_power a == 0) ->
  exists s', old_switch_on w s u idx = Ok s'.
Proof.
  intros w s u idx n [L1 L2] Hin Hl Hc Hp. unfold old_switch_on.
  destruct (assign_total (mean_cell s) idx s n _ L2 Hin) as [s1 E1].
  { intros [h j] Hk. destruct (Hin h j Hk) as [_ Hj]. destruct (lt_at _ _ _ Hj) as [a Ha]. apply vget_ok in Ha. unfold mean_cell. cbn [snd]. rewrite Ha. cbn [bind]. eauto. }
  rewrite E1. cbn [bind]. destruct (assign_ok _ _ _ _ E1) as (A1 & A2 & A3 & A4 & A5).
  apply (assign_total _ _ s1 n (List.length (z_apps s))); [auto| |].
  { intros h j Hk. apply filter_In in Hk. apply Hin. tauto. }
  intros [h j] Hk. apply filter_In in Hk. cbn [snd] in Hk. destruct Hk as [Hk Hw]. destruct (nth_error (z_apps s) j) as [a|] eqn:Ha; [|discriminate].
  apply is_water_in in Hw. unfold water_cell. cbn [fst snd]. pose proof Ha as Ha'. apply vget_ok in Ha. rewrite Ha. cbn [bind].
  destruct (last_place_in _ _ 0 0 Hw) as (p & Ep & Hpp). rewrite Ep. cbn [Nat.add].
  destruct (lt_at _ (us_cdfs w) p) as [cdf Hcdf]; [rewrite Hl; eapply at_lt; exact Hpp|]. destruct (Hc cdf (at_in _ _ _ _ Hcdf)) as [N Le].
  apply vget_ok in Hcdf. rewrite Hcdf. cbn [bind]. destruct (mc_one_total cdf (u h j) N) as (i & Ei & Hi). rewrite Ei. cbn [bind].
  destruct (lt_at _ (us_litres w) i ltac:(lia)) as [v Hv]. apply vget_ok in Hv. rewrite Hv. cbn [bind].
  destruct (Qeq_bool (wa_power a) 0) eqn:E0; [|eauto]. apply Qeq_bool_iff in E0. exfalso. apply (Hp a); [eapply nth_error_In; exact Ha'|exact Hw|exact E0].
Qed.
Print Assumptions C205_switch_on_works.

Definition ex_tv : wapp := WApp "TV1" "ACT_TV" 70 10 120 3.
Definition ex_wash : wapp := WApp "WASHING_MACHINE" "ACT_LAUNDRY" 138 0 400 1.
Definition ex_dry : wapp := WApp "WASHER_DRYER" "ACT_LAUNDRY" 198 0 700 2.
Definition ex_bath : wapp := WApp "BATH" "ACT_WASHDRESS" 0 5 12 0.
Definition ex_usage : usage := Usage ["SHOWER"; "BATH"] [[1; 1]; [1 # 4; 1]] [30; 100].
Definition ex_apps : wsim := WSim [ex_tv; ex_wash; ex_dry; ex_bath] [[true; true; false; true]] [repeat (Cell 0 0) 4].
Example C205_switch_on_ex : exists s, old_switch_on ex_usage ex_apps (fun _ _ => 1 # 2) [(0, 0); (0, 3)]%nat = Ok s /\
  map (map (fun c => (Qred (c_left c), c_refresh c))) (z_cells s) = [[(70, 80%Z); (0, 0%Z); (0, 0%Z); (25 # 3, 13%Z)]].
Proof. eexists. split; vm_compute; reflexivity. Qed.

(** Nobody active: everything but laundry, dishes and fridges goes off and waits for at most its
    delay; other households and appliances are left alone. *)
Theorem C205_switch_off : forall s occ n, laid_out n s -> List.length occ = n ->
  laid_out n (old_switch_off s occ) /\
  forall h j a c o, at_ (z_apps s) j a -> at2 (z_cells s) h j c -> at_ occ h o ->
    (o = 0%Z -> ~ In (wa_act a) ["ACT_LAUNDRY"; "ACT_DISHWASHER"; "LEVEL"]%string -> exists c', at2 (z_cells (old_switch_off s occ)) h j c' /\
       c_left c' == 0 /\ (inject_Z (c_refresh c) <= wa_delay a -> c_refresh c' = c_refresh c) /\ (wa_delay a <= inject_Z (c_refresh c) -> int_part (wa_delay a) (c_refresh c'))) /\
    (o <> 0%Z \/ In (wa_act a) ["ACT_LAUNDRY"; "ACT_DISHWASHER"; "LEVEL"]%string -> at2 (z_cells (old_switch_off s occ)) h j c).
Proof.
  intros s occ n [L1 L2] Ho.
  assert (P : forall h j a c o, at_ (z_apps s) j a -> at2 (z_cells s) h j c -> at_ occ h o ->
    at2 (z_cells (old_switch_off s occ)) h j (if Z.eqb o 0 && goes_off a then off_cell a c else c)).
  { intros h j a c o Ha (r & Hr & Hc) Hoo. unfold old_switch_off. cbn [z_cells with_cells]. eexists. split.
    - apply at_map2. exists o, r. split; [exact Hoo|]. split; [exact Hr|reflexivity].
    - apply at_map2. exists a, c. split; [exact Ha|]. split; [exact Hc|reflexivity]. }
  assert (G : forall a, goes_off a = true <-> ~ In (wa_act a) ["ACT_LAUNDRY"; "ACT_DISHWASHER"; "LEVEL"]%string).
  { intro a. unfold goes_off. rewrite !andb_true_iff, !negb_true_iff, !String.eqb_neq. simpl. intuition congruence. }
  split.
  - split; [exact L1|]. unfold old_switch_off. cbn [z_apps z_cells with_cells]. destruct L2 as [R1 R2].
    split; [rewrite map2_length, Ho, R1; apply Nat.min_id|]. intros i r Hr. apply at_map2 in Hr. destruct Hr as (o & r0 & H1 & H2 & ->).
    rewrite map2_length, (R2 _ _ H2). apply Nat.min_id.
  - intros h j a c o Ha Hc Hoo. specialize (P h j a c o Ha Hc Hoo). split.
    + intros -> Hg. apply G in Hg. rewrite Hg in P. cbn [Z.eqb andb] in P. eexists. split; [exact P|]. unfold off_cell. cbn [c_left c_refresh].
      split; [reflexivity|]. destruct (Qle_bool (inject_Z (c_refresh c)) (wa_delay a)) eqn:E.
      * apply Qle_bool_iff in E. split; [intros _; apply trunc_inject|]. intro H. assert (Q : inject_Z (c_refresh c) == wa_delay a) by lra.
        rewrite (trunc_comp _ _ Q). apply trunc_int_part.
      * split; [|intros _; apply trunc_int_part]. intro H. apply Qle_bool_iff in H. congruence.
    + intro H. replace (Z.eqb o 0 && goes_off a) with false in P; [exact P|]. symmetry. apply andb_false_iff.
      destruct H as [H|H]; [left; now apply Z.eqb_neq|right]. destruct (goes_off a) eqn:E; [|reflexivity]. apply G in E. tauto.
Qed.
Print Assumptions C205_switch_off.

Example C205_switch_off_ex :
  map (map (fun c => (Qred (c_left c), c_refresh c)))
    (z_cells (old_switch_off (WSim [ex_tv; ex_wash] [[true; true]; [true; true]] [[Cell 50 60; Cell 90 90]; [Cell 50 60; Cell 90 90]]) [0; 1]%Z))
  = [[(0, 10%Z); (90, 90%Z)]; [(50, 60%Z); (90, 90%Z)]].
Proof. vm_compute. reflexivity. Qed.

(** The programmes of the two machines: standby when no step is left, and otherwise the phase
    of the minutes since the start. *)
Theorem C205_programme : forall left standby,
  (left == 0 -> wash_power "WASHING_MACHINE" left standby = Ok standby /\ wash_power "WASHER_DRYER" left standby = Ok standby) /\
  (~ left == 0 -> (exists p, wash_power "WASHING_MACHINE" left standby = Ok p /\ programme (138 - left) p) /\
                  (exists p, wash_power "WASHER_DRYER" left standby = Ok p /\ programme (198 - left) p)) /\
  (forall name, name <> "WASHING_MACHINE"%string -> name <> "WASHER_DRYER"%string -> wash_power name left standby = Err ValueError).
Proof.
  intros left standby. unfold wash_power. split; [|split].
  - intro H. apply Qeq_bool_iff in H. cbn [bind String.eqb]. rewrite H. split; reflexivity.
  - intro H. destruct (Qeq_bool left 0) eqn:E; [apply Qeq_bool_iff in E; tauto|]. split; eexists; (split; [reflexivity|]); apply wash_phase_programme.
  - intros name H1 H2. apply String.eqb_neq in H1, H2. rewrite H1, H2. reflexivity.
Qed.
Print Assumptions C205_programme.

Example C205_programme_ex : map (fun l => wash_power "WASHING_MACHINE" l 1) [138; 120; 45; 2; 0] = [Ok 73; Ok 2056; Ok 250; Ok 568; Ok 1].
Proof. vm_compute. reflexivity. Qed.

(** The powers: fixtures none, the two machines of their owners by programme, everything else
    its mean power while it runs and the standby power of its owners when no step is left. *)
Theorem C205_powers : forall s n, laid_out n s -> named "WASHING_MACHINE" (z_apps s) = 1%nat -> named "WASHER_DRYER" (z_apps s) = 1%nat ->
  exists m, old_powers s = Ok m /\ shaped n (List.length (z_apps s)) m /\
  forall h j a own c, at_ (z_apps s) j a -> at2 (z_own s) h j own -> at2 (z_cells s) h j c -> exists p, at2 m h j p /\
    (In (wa_name a) ["BASIN"; "SINK"; "SHOWER"; "BATH"]%string -> p == 0) /\
    (In (wa_name a) ["WASHING_MACHINE"; "WASHER_DRYER"]%string -> own = true -> wash_power (wa_name a) (c_left c) (wa_standby a) = Ok p) /\
    (~ In (wa_name a) ["BASIN"; "SINK"; "SHOWER"; "BATH"; "WASHING_MACHINE"; "WASHER_DRYER"]%string ->
       (0 < c_left c -> p == wa_power a) /\ (c_left c == 0 -> p == if own then wa_standby a else 0) /\ (c_left c < 0 -> p == 0)).
Proof.
  intros s n [[O1 O2] [C1 C2]] N1 N2. unfold old_powers, check_column. rewrite N1, N2. rewrite !Nat.mul_1_l, Nat.eqb_refl. cbn [bind].
  assert (T : forall a own l, exists p, cell_power a own l = Ok p /\
    (In (wa_name a) ["BASIN"; "SINK"; "SHOWER"; "BATH"]%string -> p == 0) /\
    (In (wa_name a) ["WASHING_MACHINE"; "WASHER_DRYER"]%string -> own = true -> wash_power (wa_name a) l (wa_standby a) = Ok p) /\
    (~ In (wa_name a) ["BASIN"; "SINK"; "SHOWER"; "BATH"; "WASHING_MACHINE"; "WASHER_DRYER"]%string ->
       (0 < l -> p == wa_power a) /\ (l == 0 -> p == if own then wa_standby a else 0) /\ (l < 0 -> p == 0))).
  { intros a own l. unfold cell_power.
    destruct (existsb (String.eqb (wa_name a)) fixtures) eqn:Ef.
    - exists 0. split; [reflexivity|]. apply existsb_exists in Ef. destruct Ef as (x & Hx & Ex). apply String.eqb_eq in Ex. subst x.
      split; [reflexivity|]. split; [|intro N; exfalso; apply N; simpl in *; tauto].
      intros [H|[H|[]]] _; exfalso; rewrite <- H in Hx; simpl in Hx; repeat (destruct Hx as [Hx|Hx]; try discriminate); exact Hx.
    - assert (Nf : ~ In (wa_name a) ["BASIN"; "SINK"; "SHOWER"; "BATH"]%string).
      { intro H. assert (existsb (String.eqb (wa_name a)) fixtures = true); [|congruence]. apply existsb_exists. exists (wa_name a). split; [exact H|apply String.eqb_refl]. }
      destruct ((String.eqb (wa_name a) "WASHING_MACHINE" || String.eqb (wa_name a) "WASHER_DRYER") && own)%bool eqn:Ew.
      + apply andb_true_iff in Ew. destruct Ew as [Ew Eo]. apply orb_true_iff in Ew. rewrite !String.eqb_eq in Ew.
        assert (W : exists p, wash_power (wa_name a) l (wa_standby a) = Ok p) by (destruct Ew as [-> | ->]; unfold wash_power; cbn [String.eqb bind]; eexists; reflexivity).
        destruct W as [p Hp]. exists p. split; [exact Hp|]. split; [tauto|]. split; [tauto|]. intro N. exfalso. apply N. simpl. intuition.
      + exists (plain_power a own l). split; [reflexivity|]. split; [tauto|]. split.
        * intros H Hown. exfalso. subst own. rewrite andb_true_r in Ew. apply orb_false_iff in Ew. rewrite !String.eqb_neq in Ew. simpl in H. intuition congruence.
        * intros _. unfold plain_power. split; [|split]; intro H.
          -- assert (E1 : Qltb 0 l = true) by (apply Qltb_lt; exact H). assert (E2 : Qeq_bool l 0 = false) by (destruct (Qeq_bool l 0) eqn:E; [apply Qeq_bool_iff in E; lra|reflexivity]).
             rewrite E1, E2. cbn [b2q]. ring.
          -- assert (E1 : Qltb 0 l = false) by (destruct (Qltb 0 l) eqn:E; [apply Qltb_lt in E; lra|reflexivity]). assert (E2 : Qeq_bool l 0 = true) by (apply Qeq_bool_iff; exact H).
             rewrite E1, E2. destruct own; cbn [b2q]; ring.
          -- assert (E1 : Qltb 0 l = false) by (destruct (Qltb 0 l) eqn:E; [apply Qltb_lt in E; lra|reflexivity]). assert (E2 : Qeq_bool l 0 = false) by (destruct (Qeq_bool l 0) eqn:E; [apply Qeq_bool_iff in E; lra|reflexivity]).
             rewrite E1, E2. cbn [b2q]. ring. }
  match goal with |- exists m, mapM ?F ?L = Ok m /\ _ => assert (M : exists m, mapM F L = Ok m) end.
  { apply mapM_total. intros [r1 r2] _. apply mapM_total. intros [a [o c]] _. cbn [fst snd]. destruct (T a o (c_left c)) as (p & E & _). eauto. }
  destruct M as [m Em]. exists m. split; [exact Em|]. destruct (mapM_ok _ _ _ _ _ Em) as [L K].
  rewrite combine_length, O1, C1, Nat.min_id in L. split.
  - split; [exact L|]. intros i r Hr. destruct (lt_at _ (z_own s) i) as [r1 H1]; [apply at_lt in Hr; lia|]. destruct (lt_at _ (z_cells s) i) as [r2 H2]; [apply at_lt in Hr; lia|].
    destruct (K i (r1, r2)) as (y & Y1 & Y2). { rewrite Parse_GroupProofs.combine_nth_error. unfold at_ in H1, H2. rewrite H1, H2. reflexivity. }
    pose proof (at_fun _ _ _ _ _ Hr Y1) as <-. destruct (mapM_ok _ _ _ _ _ Y2) as [L' _]. rewrite L'. cbn [fst snd].
    rewrite !combine_length, (O2 _ _ H1), (C2 _ _ H2), !Nat.min_id. reflexivity.
  - intros h j a own c Ha (r1 & H1 & Ho) (r2 & H2 & Hc). destruct (K h (r1, r2)) as (y & Y1 & Y2). { rewrite Parse_GroupProofs.combine_nth_error. unfold at_ in H1, H2. rewrite H1, H2. reflexivity. }
    destruct (mapM_ok _ _ _ _ _ Y2) as [_ K']. cbn [fst snd] in K'. destruct (K' j (a, (own, c))) as (p & P1 & P2).
    { rewrite !Parse_GroupProofs.combine_nth_error. unfold at_ in Ha, Ho, Hc. rewrite Ha, Ho, Hc. reflexivity. }
    cbn [fst snd] in P2. destruct (T a own (c_left c)) as (p' & E & R). rewrite E in P2. injection P2 as ->. exists p. split; [exists y; split; [exact Y1|exact P1]|exact R].
Qed.
Print Assumptions C205_powers.

Example C205_powers_ex : option_map (map (map Qred)) (match old_powers (WSim [ex_tv; ex_wash; ex_dry; ex_bath] [[true; true; false; true]; [true; false; true; true]]
    [[Cell 50 60; Cell 120 120; Cell 0 0; Cell 4 4]; [Cell 0 0; Cell 0 0; Cell 30 0; Cell 0 0]]) with Ok m => Some m | Err _ => None end)
  = Some [[120; 2056; 0; 0]; [3; 0; 2500; 0]].
Proof. vm_compute. reflexivity. Qed.

(** Without exactly one washing machine and one washer dryer among the appliances the power
    cannot be read. *)
Theorem C205_columns : forall s, z_own s <> [] -> named "WASHING_MACHINE" (z_apps s) <> 1%nat \/ named "WASHER_DRYER" (z_apps s) <> 1%nat ->
  old_powers s = Err IndexError.
Proof.
  intros s N H. assert (P : (0 < List.length (z_own s))%nat) by (destruct (z_own s); [congruence|simpl; lia]).
  unfold old_powers, check_column. destruct (Nat.eqb_spec (named "WASHING_MACHINE" (z_apps s) * List.length (z_own s)) (List.length (z_own s))) as [E1|E1]; [|reflexivity]. cbn [bind].
  destruct (Nat.eqb_spec (named "WASHER_DRYER" (z_apps s) * List.length (z_own s)) (List.length (z_own s))) as [E2|E2]; [|reflexivity].
  exfalso. destruct H as [H|H]; nia.
Qed.
Print Assumptions C205_columns.
Example C205_columns_ex : old_powers (WSim [ex_tv; ex_wash] [[true; true]] [[Cell 0 0; Cell 0 0]]) = Err IndexError.
Proof. reflexivity. Qed.

(** "An appliance that does not run uses at most its standby power": a washing machine whose
    cycle does not last a whole number of minutes ends below zero and is then read as drying,
    2500 W until it is used again. *)
Theorem C205_idle_machine_refuted : exists s s1 m, old_switch_on ex_usage s (fun _ _ => 0) [(0, 0)%nat] = Ok s1 /\
  (exists a, at_ (z_apps s) 0 a /\ wa_dur a == 2 + (1 # 2) /\ wa_standby a == 1) /\
  old_powers (ticks 10 s1) = Ok m /\ at2 m 0 0 2500.
Proof.
  eexists (WSim [WApp "WASHING_MACHINE" "ACT_LAUNDRY" (5 # 2) 0 400 1; ex_dry] [[true; true]] [[Cell 0 0; Cell 0 0]]). eexists. eexists.
  split; [vm_compute; reflexivity|]. split; [eexists; split; [reflexivity|split; reflexivity]|]. split; [vm_compute; reflexivity|]. eexists. split; reflexivity.
Qed.
Print Assumptions C205_idle_machine_refuted.

(** With cycles of whole minutes, an idle appliance has no step left at all. *)
Theorem C205_whole_cycles_partial : forall k z, (0 <= z)%Z -> exists y, (0 <= y)%Z /\ Nat.iter k tick_left (inject_Z z) == inject_Z y /\ (y = Z.max 0 (z - Z.of_nat k))%Z.
Proof.
  induction k as [|k IH]; intros z Hz.
  - exists z. split; [lia|]. split; [reflexivity|lia].
  - destruct (IH z Hz) as (y & Hy & E & Ey). change (Nat.iter (S k) tick_left (inject_Z z)) with (tick_left (Nat.iter k tick_left (inject_Z z))).
    set (x := Nat.iter k tick_left (inject_Z z)) in *. unfold tick_left. destruct (Qltb 0 x) eqn:El.
    + apply Qltb_lt in El. rewrite E in El. change 0 with (inject_Z 0) in El. rewrite <- Zlt_Qlt in El. exists (y - 1)%Z. split; [lia|]. split; [|lia].
      rewrite E. unfold Z.sub. rewrite inject_Z_plus. reflexivity.
    + assert (H : x <= 0) by (apply Qnot_lt_le; intro C; apply Qltb_lt in C; congruence). rewrite E in H. change 0 with (inject_Z 0) in H. rewrite <- Zle_Qle in H.
      exists y. split; [lia|]. split; [exact E|lia].
Qed.
Print Assumptions C205_whole_cycles_partial.
Example C205_whole_cycles_ex : Qred (Nat.iter 5 tick_left 3) = 0 /\ Qred (Nat.iter 5 tick_left (7 # 2)) = -1 # 2.
Proof. vm_compute. split; reflexivity. Qed.

(** A whole wash takes 55113 watt minutes, and the standby power afterwards. *)
Fixpoint wash_run (st d : Q) (n : nat) : Q :=
  match n with O => 0 | S m => (if Qeq_bool d 0 then st else wash_phase (138 - d)) + wash_run st (tick_left d) m end.
Lemma Qltb_comp' : forall x y z, x == y -> Qltb z x = Qltb z y.
Proof. intros x y z E. apply eq_true_iff_eq. rewrite !Qltb_lt, E. reflexivity. Qed.
Lemma wash_phase_comp : forall x y, x == y -> wash_phase x = wash_phase y.
Proof.
  intros x y E. unfold wash_phase. generalize 0. induction wash_table as [|[[lo hi] v] t IH]; intro p; [reflexivity|]. cbn [fold_left].
  assert (E1 : match lo with None => true | Some z => Qltb z x end = match lo with None => true | Some z => Qltb z y end) by (destruct lo; [now apply Qltb_comp'|reflexivity]).
  assert (E2 : Qle_bool x hi = Qle_bool y hi) by (apply eq_true_iff_eq; rewrite !Qle_bool_iff, E; reflexivity).
  rewrite E1, E2. apply IH.
Qed.
Lemma tick_comp : forall x y, x == y -> tick_left x == tick_left y.
Proof. intros x y E. unfold tick_left. rewrite (Qltb_comp' x y 0 E). destruct (Qltb 0 y); rewrite E; reflexivity. Qed.
Lemma wash_run_comp : forall st n x y, x == y -> wash_run st x n = wash_run st y n.
Proof.
  intros st n. induction n as [|n IH]; intros x y E; [reflexivity|]. cbn [wash_run]. rewrite (IH _ _ (tick_comp _ _ E)).
  assert (B : Qeq_bool x 0 = Qeq_bool y 0) by (apply eq_true_iff_eq; rewrite !Qeq_bool_iff, E; reflexivity).
  rewrite B, (wash_phase_comp (138 - x) (138 - y)); [reflexivity|rewrite E; reflexivity].
Qed.
Lemma Nat_iter_swap : forall n d, Nat.iter n tick_left (tick_left d) = tick_left (Nat.iter n tick_left d).
Proof. induction n as [|n IH]; intro d; [reflexivity|]. simpl. f_equal. exact (IH d). Qed.
Lemma wash_run_plus : forall st n k d, wash_run st d (n + k) == wash_run st d n + wash_run st (Nat.iter n tick_left d) k.
Proof.
  intros st n k. induction n as [|n IH]; intro d; [cbn; ring|]. cbn [Nat.add wash_run]. rewrite IH.
  change (Nat.iter (S n) tick_left d) with (tick_left (Nat.iter n tick_left d)). rewrite <- Nat_iter_swap. ring.
Qed.
Lemma wash_run_done : forall st k d, d == 0 -> wash_run st d k == inject_Z (Z.of_nat k) * st.
Proof.
  intros st k. induction k as [|k IH]; intros d E; [cbn; ring|]. cbn [wash_run]. pose proof E as B. apply Qeq_bool_iff in B. rewrite B.
  rewrite (IH (tick_left d)); [rewrite Nat2Z.inj_succ; unfold Z.succ; rewrite inject_Z_plus; ring|].
  rewrite (tick_comp _ _ E). reflexivity.
Qed.
Lemma metered_run : forall h j a n k s q c, laid_out k s -> named "WASHING_MACHINE" (z_apps s) = 1%nat -> named "WASHER_DRYER" (z_apps s) = 1%nat ->
  at_ (z_apps s) j a -> wa_name a = "WASHING_MACHINE" -> at2 (z_own s) h j true -> at2 (z_cells s) h j c ->
  metered h j n s q -> q = wash_run (wa_standby a) (c_left c) n.
Proof.
  intros h j a n. induction n as [|n IH]; intros k s q c HL N1 N2 Ha Hn Ho Hc M; inversion M as [|? ? m x q' Em Hx M' E1 E2 E3]; subst; [reflexivity|].
  cbn [wash_run]. destruct (C205_powers s k HL N1 N2) as (m' & Em' & _ & P). rewrite Em in Em'. injection Em' as <-.
  destruct (P h j a true c Ha Ho Hc) as (p & Hp & _ & W & _). pose proof (at2_fun _ _ _ _ _ _ Hx Hp) as ->. specialize (W ltac:(rewrite Hn; simpl; tauto) eq_refl).
  rewrite Hn in W. unfold wash_power in W. cbn [String.eqb Ascii.eqb Bool.eqb bind] in W. injection W as <-. f_equal.
  refine (IH k (old_tick s) q' _ _ N1 N2 Ha Hn Ho (old_tick_at s h j c Hc) M').
  destruct HL as [L1 [L2 L3]]. split; [exact L1|]. unfold old_tick. cbn [z_cells z_apps with_cells]. split; [rewrite map_length; exact L2|].
  intros i r Hr. apply at_map in Hr. destruct Hr as (r0 & R1 & ->). rewrite map_length. exact (L3 _ _ R1).
Qed.

Theorem C205_energy : forall k h j a n s q c, laid_out k s -> named "WASHING_MACHINE" (z_apps s) = 1%nat -> named "WASHER_DRYER" (z_apps s) = 1%nat ->
  at_ (z_apps s) j a -> wa_name a = "WASHING_MACHINE" -> at2 (z_own s) h j true -> at2 (z_cells s) h j c -> c_left c == 138 ->
  metered h j (138 + n) s q -> q == 55113 + inject_Z (Z.of_nat n) * wa_standby a.
Proof.
  intros k h j a n s q c HL N1 N2 Ha Hn Ho Hc E M. rewrite (metered_run h j a _ k s q c HL N1 N2 Ha Hn Ho Hc M), (wash_run_comp _ _ _ _ E), wash_run_plus, (wash_run_done _ n (Nat.iter 138 tick_left 138)).
  - apply Qplus_comp; [|reflexivity]. vm_compute. reflexivity.
  - vm_compute. reflexivity.
Qed.
Print Assumptions C205_energy.
(** Such runs exist: two minutes of a machine that has just been started. *)
Example C205_energy_ex : exists s, laid_out 1 s /\ named "WASHING_MACHINE" (z_apps s) = 1%nat /\ named "WASHER_DRYER" (z_apps s) = 1%nat /\
  at2 (z_cells s) 0 0 (Cell 138 138) /\ exists q, metered 0 0 2 s q /\ q == 146.
Proof.
  exists (WSim [ex_wash; ex_dry] [[true; false]] [[Cell 138 138; Cell 0 0]]). repeat split; try (intros i r H; destruct i as [|[|i]]; [injection H as <-; reflexivity|discriminate..]).
  - eexists. split; reflexivity.
  - eexists. split; [eapply metered_more; [reflexivity|eexists; split; reflexivity|eapply metered_more; [reflexivity|eexists; split; reflexivity|apply metered_none]]|vm_compute; reflexivity].
Qed.

(** ** C206: water *)

(** A fixture that is switched on delivers exactly the volume drawn: the flow times the minutes
    until it is empty, and nothing after. *)
Theorem C206_volume : forall w s u idx s' n h j a own c, laid_out n s -> old_switch_on w s u idx = Ok s' -> In (h, j) idx ->
  at_ (z_apps s) j a -> at2 (z_own s) h j own -> at2 (z_cells s) h j c ->
  In (wa_name a) (us_labels w) -> wa_standby a == 0 -> 0 < wa_power a -> (forall v, In v (us_litres w) -> 0 <= v) ->
  exists p cdf i v, at_ (us_labels w) p (wa_name a) /\ at_ (us_cdfs w) p cdf /\ picks cdf (u h j) i /\ at_ (us_litres w) i v /\
    forall k, (exists q, poured w h j k s' q) /\ forall q, poured w h j k s' q ->
      (v <= wa_power a * inject_Z (Z.of_nat k) -> q == v) /\ (wa_power a * inject_Z (Z.of_nat k) <= v -> q == wa_power a * inject_Z (Z.of_nat k)).
Proof.
  intros w s u idx s' n h j a own c HL H Hin Ha Ho Hc Hw Hs Pf Hv.
  destruct (C205_switch_on w s u idx s' n HL H) as (_ & A1 & A2 & A3). destruct (A3 h j a c Ha Hc) as [_ B]. destruct (B Hin) as (c' & C1 & _ & _ & C2).
  destruct (C2 Hw) as (p & cdf & i & v & D1 & D2 & D3 & D4 & D5). exists p, cdf, i, v. repeat (split; [assumption|]).
  assert (P : 0 <= c_left c').
  { destruct (Qlt_le_dec (c_left c') 0) as [L|L]; [|exact L]. exfalso. pose proof (Hv v (at_in _ _ _ _ D4)).
    assert (c_left c' * wa_power a < 0) by (setoid_replace 0 with (0 * wa_power a) by ring; apply Qmult_lt_compat_r; assumption). lra. }
  intro k. assert (Ha' : at_ (z_apps s') j a) by (rewrite A1; exact Ha). assert (Ho' : at2 (z_own s') h j own) by (rewrite A2; exact Ho).
  split; [eexists; apply (poured_run w h j k s' 0 a own c' Ha' Ho' C1)|]. intros q Hq. apply (poured_run w h j k s' q a own c' Ha' Ho' C1) in Hq. subst q.
  destruct (water_run_sum w a own k (c_left c') Hw Hs P) as [W1 W2]. set (z := inject_Z (Z.of_nat k)) in *. split; intro L.
  - rewrite W1; [exact D5|]. apply (Qmult_le_r _ _ (wa_power a) Pf). lra.
  - rewrite W2; [ring|]. apply (Qmult_le_r _ _ (wa_power a) Pf). lra.
Qed.
Print Assumptions C206_volume.

(** A bath of 100 litres at 12 litres per minute: 96 after 8 minutes, 100 after 9. *)
Example C206_volume_ex : exists s, old_switch_on ex_usage ex_apps (fun _ _ => 1 # 2) [(0, 3)%nat] = Ok s /\
  map (fun k => Qred (water_run ex_usage ex_bath true (25 # 3) k)) [1; 8; 9; 20]%nat = [12; 96; 100; 100] /\ at2 (z_cells s) 0 3 (Cell (100 / 12) 13).
Proof. eexists. split; [vm_compute; reflexivity|]. split; [vm_compute; reflexivity|]. eexists. split; reflexivity. Qed.

(** Electrical appliances use no water; a fixture at most its flow and never less than zero. *)
Theorem C206_water : forall w s h j a own c x, at_ (z_apps s) j a -> at2 (z_own s) h j own -> at2 (z_cells s) h j c -> at2 (old_water w s) h j x ->
  (~ In (wa_name a) (us_labels w) -> x == 0) /\
  (In (wa_name a) (us_labels w) -> (c_left c <= 0 -> x == if own then wa_standby a else 0) /\ (1 <= c_left c -> x == wa_power a) /\
     (0 < c_left c -> c_left c < 1 -> x == c_left c * wa_power a)).
Proof.
  intros w s h j a own c x Ha Ho Hc Hx. pose proof (at2_fun _ _ _ _ _ _ Hx (old_water_at w s h j a own c Ha Ho Hc)) as ->. clear Hx. set (l := c_left c). clearbody l.
  unfold cell_water. split; intro H.
  - destruct (is_water w a) eqn:E; [apply is_water_in in E; tauto|reflexivity].
  - apply is_water_in in H. rewrite H.
    assert (B1 : forall y z, y < z -> Qltb y z = true) by (intros; now apply Qltb_lt).
    assert (B2 : forall y z, z <= y -> Qltb y z = false) by (intros y z L; destruct (Qltb y z) eqn:E; [apply Qltb_lt in E; lra|reflexivity]).
    assert (B3 : forall y z, y <= z -> Qle_bool y z = true) by (intros; now apply Qle_bool_iff).
    assert (B4 : forall y z, z < y -> Qle_bool y z = false) by (intros y z L; destruct (Qle_bool y z) eqn:E; [apply Qle_bool_iff in E; lra|reflexivity]).
    split; [|split]; intros.
    + rewrite B3, B2, B4 by lra. destruct own; cbn [b2q andb]; ring.
    + rewrite (B4 l 0), (B1 0 l), (B2 l 1), (B3 1 l) by lra. cbn [b2q andb]. ring.
    + rewrite (B4 l 0), (B1 0 l), (B1 l 1), (B4 1 l) by lra. cbn [b2q andb]. ring.
Qed.
Print Assumptions C206_water.

(** The heat transfer coefficient: 70 W/K per litre in a minute. *)
Theorem C206_transfer : forall w s, List.length (old_transfer w s) = List.length (old_water w s) /\
  forall h row, at_ (old_water w s) h row -> exists x, at_ (old_transfer w s) h x /\ x == 70 * total row.
Proof.
  intros w s. unfold old_transfer. split; [apply map_length|]. intros h row Hr. eexists. split; [apply at_map; exists row; split; [exact Hr|reflexivity]|].
  rewrite qsum_total. field.
Qed.
Print Assumptions C206_transfer.
Example C206_transfer_ex : map Qred (old_transfer ex_usage (WSim [ex_tv; ex_bath] [[true; true]] [[Cell 5 5; Cell 3 3]])) = [840].
Proof. vm_compute. reflexivity. Qed.
