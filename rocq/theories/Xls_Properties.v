(** * Properties of the lighting tables of the Excel input file (C217). *)

From Coq Require Import String List ZArith QArith Bool Arith Lia.
From Verif Require Import Prelude PreludeFacts SpecBase SpecBaseFacts Sampling_Spec Sampling_Model Law_Spec Sheet_Model Sheet_Spec
  Heat_Model Heat_Spec Fit_Model Fit_Spec Conf_Model Conf_Spec Conf_Proofs Xls_Model.
Import ListNotations.
Open Scope string_scope.
Open Scope list_scope.

(** The file is the one asked for, or inputs.xlsx beside the module; it exists. *)
Theorem C217_path : forall here sep is_file path,
  (forall p, input_path here sep is_file path = Ok p <-> is_file p = true /\ (path = Some p \/ (path = None /\ p = (here ++ sep ++ "inputs.xlsx")%string))) /\
  ((forall p, input_path here sep is_file path <> Ok p) -> input_path here sep is_file path = Err FileNotFoundError).
Proof.
  intros here sep is_file path. unfold input_path. cbv zeta. split.
  - intro p. destruct path as [q|].
    + destruct (is_file q) eqn:E; split; intro H; try discriminate H.
      * assert (q = p) by congruence. subst q. auto.
      * destruct H as [_ [H|[H _]]]; congruence.
      * destruct H as [F [H|[H _]]]; congruence.
    + destruct (is_file (here ++ sep ++ "inputs.xlsx")%string) eqn:E; split; intro H; try discriminate H.
      * assert (Ep : p = (here ++ sep ++ "inputs.xlsx")%string) by congruence. subst p. auto.
      * destruct H as [_ [H|[_ H]]]; congruence.
      * destruct H as [F [H|[_ H]]]; congruence.
  - match goal with |- context [is_file ?x] => destruct (is_file x); [intro N; destruct (N _ eq_refl)|reflexivity] end.
Qed.

(** Every number of the lighting is the one of its cell. *)
Theorem C217_lighting : forall s g, once (l_at35 s) -> once (l_at53 s) -> input_lighting s = Ok g ->
  at_ (l_at23 s) 5 (g_scalar g) /\
  top (l_at35 s) "occupancy" 6 (g_occupancy g) /\ top (l_at53 s) "probability" 9 (g_durations_cdf g) /\
  top (l_at53 s) "(minutes)" 9 (g_low g) /\ top (l_at53 s) "(minutes).1" 9 (g_high g) /\
  at_ (l_at3 s) 5 (g_threshold_mean g) /\ at_ (l_at3 s) 6 (g_threshold_std g).
Proof.
  assert (T : forall A (d : list (string * list A)) k n c, once d -> wcol d k = Ok c -> top d k n (firstn n c)).
  { intros A d k n c O H i v. rewrite firstn_at. rewrite (wcol_holds _ _ _ _ _ _ O H). tauto. }
  assert (EN : forall A (l : list A) i v, entry_of l i = Ok v -> at_ l i v). { intros A l i v. unfold entry_of, at_. destruct (nth_error l i); congruence. }
  intros s g O1 O2 H. unfold input_lighting in H. do 7 next H. match type of H with Ok ?x = Ok ?y => assert (Eo : y = x) by congruence; clear H; subst y end.
  cbn [g_scalar g_occupancy g_durations_cdf g_low g_high g_threshold_mean g_threshold_std].
  split; [now apply EN|]. repeat (split; [now apply T|]). split; now apply EN.
Qed.

(** Which sheets have a lighting, and what is missing in the others. *)
Theorem C217_lighting_accepted : forall s k m, (6 <= List.length (l_at23 s))%nat -> (7 <= List.length (l_at3 s))%nat ->
  has_columns (l_at35 s) k ["occupancy"] -> has_columns (l_at53 s) m ["probability"; "(minutes)"; "(minutes).1"] ->
  exists g, input_lighting s = Ok g /\ List.length (g_occupancy g) = Nat.min 6 k /\ List.length (g_durations_cdf g) = Nat.min 9 m /\
    List.length (g_low g) = Nat.min 9 m /\ List.length (g_high g) = Nat.min 9 m.
Proof.
  assert (EN : forall A (l : list A) i, (i < List.length l)%nat -> exists v, entry_of l i = Ok v).
  { intros A l i L. unfold entry_of. destruct (nth_error l i) as [v|] eqn:E; [exists v; reflexivity|]. apply nth_error_None in E. lia. }
  intros s k m L1 L2 H1 H2. destruct (EN _ (l_at23 s) 5%nat ltac:(lia)) as (v1 & E1). destruct (EN _ (l_at3 s) 5%nat ltac:(lia)) as (v2 & E2). destruct (EN _ (l_at3 s) 6%nat ltac:(lia)) as (v3 & E3).
  destruct (wcol_has _ _ _ _ "occupancy" H1 ltac:(cbn; tauto)) as (c1 & F1 & M1). destruct (wcol_has _ _ _ _ "probability" H2 ltac:(cbn; tauto)) as (c2 & F2 & M2).
  destruct (wcol_has _ _ _ _ "(minutes)" H2 ltac:(cbn; tauto)) as (c3 & F3 & M3). destruct (wcol_has _ _ _ _ "(minutes).1" H2 ltac:(cbn; tauto)) as (c4 & F4 & M4).
  eexists. unfold input_lighting. rewrite E1. cbn [bind]. rewrite F1. cbn [bind]. rewrite F2. cbn [bind]. rewrite F3. cbn [bind]. rewrite F4. cbn [bind]. rewrite E2. cbn [bind]. rewrite E3. cbn [bind].
  split; [reflexivity|]. cbn [g_occupancy g_durations_cdf g_low g_high]. rewrite !firstn_length, M1, M2, M3, M4. repeat split.
Qed.

Theorem C217_lighting_refused : forall s,
  ((List.length (l_at23 s) < 6)%nat -> input_lighting s = Err IndexError) /\
  ((6 <= List.length (l_at23 s))%nat -> (forall c, ~ In ("occupancy", c) (l_at35 s)) -> input_lighting s = Err KeyError) /\
  (forall g, input_lighting s = Ok g -> (7 <= List.length (l_at3 s))%nat /\ exists c, In ("(minutes).1", c) (l_at53 s)).
Proof.
  intro s. split; [|split].
  - intro L. unfold input_lighting, entry_of at 1. rewrite (proj2 (nth_error_None (l_at23 s) 5)) by lia. reflexivity.
  - intros L N. unfold input_lighting, entry_of at 1. destruct (nth_error (l_at23 s) 5) as [v|] eqn:E; [|apply nth_error_None in E; lia]. cbn [bind]. rewrite (wcol_missing _ _ _ N). reflexivity.
  - intros g H. unfold input_lighting in H. do 7 next H. split.
    + match goal with E : entry_of (l_at3 s) 6 = Ok _ |- _ => unfold entry_of in E; destruct (nth_error (l_at3 s) 6) eqn:E'; [|discriminate E] end.
      assert (N : nth_error (l_at3 s) 6 <> None) by congruence. apply nth_error_Some in N. lia.
    + match goal with E : wcol (l_at53 s) "(minutes).1" = Ok ?c |- _ => exists c; apply wcol_in; exact E end.
Qed.

(** The sheet is that of version 2.2 of CREST: both loaders give the same lighting. *)
Theorem C217_crest : forall s, input_lighting s = parse_lighting "v_2.2" s.
Proof. reflexivity. Qed.

(** Bulbs: the power and the penetration of the same row, in this order. *)
Theorem C217_bulbs : forall A (df : list (string * list A)) power share, once df -> input_bulbs df = Ok (power, share) ->
  forall i v w, (at_ power i v /\ at_ share i w) <-> (holds df "Consumption[W]" i v /\ holds df "Penetration" i w).
Proof.
  intros A df power share O H i v w. unfold input_bulbs in H. next H. next H. assert (E1 : c0 = power) by congruence. assert (E2 : c = share) by congruence. subst c0 c.
  rewrite (wcol_holds _ _ _ _ i v O E0), (wcol_holds _ _ _ _ i w O E). tauto.
Qed.

Theorem C217_bulbs_accepted : forall A (df : list (string * list A)),
  (forall n, has_columns df n ["Consumption[W]"; "Penetration"] -> exists power share, input_bulbs df = Ok (power, share) /\ List.length power = n /\ List.length share = n) /\
  ((forall c, ~ In ("Consumption[W]", c) df) \/ (forall c, ~ In ("Penetration", c) df) -> input_bulbs df = Err KeyError).
Proof.
  intros A df. split.
  - intros n H. destruct (wcol_has _ _ _ _ "Consumption[W]" H ltac:(cbn; tauto)) as (p & E1 & L1). destruct (wcol_has _ _ _ _ "Penetration" H ltac:(cbn; tauto)) as (q & E2 & L2).
    exists p, q. unfold input_bulbs. rewrite E2. cbn [bind]. rewrite E1. auto.
  - intros [N|N]; unfold input_bulbs.
    + destruct (wcol df "Penetration") as [c|e] eqn:E; cbn [bind]; [rewrite (wcol_missing _ _ _ N); reflexivity|]. unfold wcol in E. destruct (dget String.eqb df "Penetration"); [discriminate|congruence].
    + rewrite (wcol_missing _ _ _ N). reflexivity.
Qed.

(** Configurations: all rows of the sheet without its two leading columns. *)
Theorem C217_config : forall A (df : list (list A)), List.length (input_bulbs_config df) = List.length df /\
  forall i j v, (exists row, at_ (input_bulbs_config df) i row /\ at_ row j v) <-> exists row, at_ df i row /\ at_ row (j + 2) v.
Proof.
  intros A df. unfold input_bulbs_config. split; [apply map_length|]. intros i j v.
  assert (K : forall r : list A, at_ (skipn 2 r) j v <-> at_ r (j + 2) v).
  { intro r. unfold at_. rewrite Nat.add_comm. destruct r as [|a0 [|a1 r]]; cbn; [destruct j; split; discriminate|destruct j; split; discriminate|tauto]. }
  split.
  - intros (row & H & Hv). unfold at_ in H. rewrite nth_error_map in H. destruct (nth_error df i) as [r|] eqn:Er; [|discriminate H]. cbn [option_map] in H. exists r. split; [exact Er|]. apply K. congruence.
  - intros (r & H & Hv). exists (skipn 2 r). split; [|apply K; exact Hv]. unfold at_ in *. rewrite nth_error_map, H. reflexivity.
Qed.

(** Refuted: the same sheet of bulbs gives the configurations of CREST.  CREST stops after
    38 bulbs and 100 configurations, the input file does not. *)
Theorem C217_config_crest_refuted : exists (df : list (list nat)), bulbs_config "v_2.2" df <> Ok (input_bulbs_config df).
Proof. exists [seq 0 41]. cbn. discriminate. Qed.

(** The corrected statement: for the sheets of at most this size. *)
Theorem C217_config_crest_partial : forall A (df : list (list A)), (List.length df <= 100)%nat -> Forall (fun row => (List.length row <= 40)%nat) df ->
  bulbs_config "v_2.2" df = Ok (input_bulbs_config df).
Proof.
  intros A df L F. unfold bulbs_config, input_bulbs_config. cbn [String.eqb Ascii.eqb Bool.eqb orb]. rewrite (firstn_all2 df L). f_equal. apply map_ext_in. intros row I.
  rewrite Forall_forall in F. specialize (F row I). apply firstn_all2. rewrite skipn_length. lia.
Qed.
Print Assumptions C217_path.
Print Assumptions C217_lighting.
Print Assumptions C217_lighting_accepted.
Print Assumptions C217_lighting_refused.
Print Assumptions C217_crest.
Print Assumptions C217_bulbs.
Print Assumptions C217_bulbs_accepted.
Print Assumptions C217_config.
Print Assumptions C217_config_crest_refuted.
Print Assumptions C217_config_crest_partial.

Example C217_path_ex : input_path "/d" "/" (String.eqb "/d/inputs.xlsx") None = Ok "/d/inputs.xlsx" /\ input_path "/d" "/" (String.eqb "/d/inputs.xlsx") (Some "x.xlsx") = Err FileNotFoundError.
Proof. split; reflexivity. Qed.
Example C217_bulbs_ex : input_bulbs [("Bulb", [1; 2]); ("Penetration", [30; 70]); ("Consumption[W]", [60; 11])]%nat = Ok ([60; 11], [30; 70])%nat.
Proof. reflexivity. Qed.
Example C217_config_ex : input_bulbs_config [[1; 2; 60; 40]; [2; 2; 11; 0]]%nat = [[60; 40]; [11; 0]]%nat.
Proof. reflexivity. Qed.
Example C217_lighting_ex : let s := LightSheet [0; 1; 2; 3; 4; (8 # 1000)]%Q [("occupancy", [0; 1; 1.5; 1.7; 2; 2.1; 9]%Q)]
    [("probability", [0.1; 0.2]%Q); ("(minutes)", [1; 2]%Q); ("(minutes).1", [1; 3]%Q)] [0; 1; 2; 3; 4; 60; 10]%Q in
  exists g, input_lighting s = Ok g /\ g_scalar g = (8 # 1000)%Q /\ List.length (g_occupancy g) = 6%nat /\ g_high g = [1; 3]%Q /\ g_threshold_std g = 10%Q.
Proof. eexists. repeat split. Qed.
