(** * Properties of the configuration tables of CREST (C210). *)

From Coq Require Import String List ZArith QArith Bool Arith Lia Lqa.
From Verif Require Import Prelude PreludeFacts SpecBase SpecBaseFacts Sampling_Spec Sampling_Model Sampling_Proofs Law_Spec Sheet_Model Sheet_Spec Sheet_Proofs
  Heat_Model Heat_Spec Fit_Model Fit_Spec Fit_Proofs Conf_Model Conf_Spec Conf_Proofs.
Import ListNotations.
Open Scope string_scope.
Open Scope list_scope.
Open Scope Q_scope.

(** ** C210: climate, lighting and population of a version *)

(** The two places, on the globe, with clocks within half an hour of the sun; daylight
    saving only in England. *)
Theorem C210_places : forall version p, geographic version = Ok p ->
  ((version = "v_2.2" /\ pl_country p = "england" /\ pl_dst p = true /\ pl_latitude p == 52.8 /\ pl_longitude p == -1.2 /\ pl_meridian p == 0) \/
   (version = "v_2.3.3" /\ pl_country p = "india" /\ pl_dst p = false /\ pl_latitude p == 13.1 /\ pl_longitude p == 80.3 /\ pl_meridian p == 82.5)) /\
  -90 < pl_latitude p < 90 /\ pl_longitude p - pl_meridian p < 7.5 /\ pl_meridian p - pl_longitude p < 7.5.
Proof.
  intros version p H. unfold geographic in H. destruct (String.eqb_spec version "v_2.2") as [->|]; [|destruct (String.eqb_spec version "v_2.3.3") as [->|]; [|discriminate]];
    injection H as <-; cbn [pl_country pl_latitude pl_longitude pl_meridian pl_dst]; (split; [|repeat split; reflexivity]); [left|right]; repeat split; reflexivity.
Qed.

(** The model of the temperatures is stationary, with random changes; it is that of version
    2.2. *)
Theorem C210_temperatures : forall version a, temperatures version = Ok a ->
  version = "v_2.2" /\ ar_mean a == 9.3 /\ ar_std a == 6.5 /\ ar_shift a == -115 /\ ar_AR a == 0.81 /\ ar_MA a == 0.62 /\ ar_SD a == 0.5 /\
  -1 < ar_AR a < 1 /\ 0 < ar_SD a.
Proof.
  intros version a H. unfold temperatures in H. destruct (String.eqb_spec version "v_2.2") as [->|]; [|discriminate]. injection H as <-. cbn. repeat split; reflexivity.
Qed.

(** Not every version with a place has a model of its temperatures. *)
Theorem C210_climate_refuted : exists version p, geographic version = Ok p /\ temperatures version = Err NotImplementedError.
Proof. exists "v_2.3.3"%string. eexists. split; reflexivity. Qed.

(** The corrected statement: the versions with a model of the temperatures have a place;
    other versions have neither. *)
Theorem C210_climate_partial : forall version, (forall a, temperatures version = Ok a -> exists p, geographic version = Ok p) /\
  (version <> "v_2.2" -> version <> "v_2.3.3" -> geographic version = Err NotImplementedError /\ temperatures version = Err NotImplementedError).
Proof.
  intros version. split.
  - intros a H. destruct (C210_temperatures _ _ H) as [-> _]. eexists. reflexivity.
  - intros N1 N2. apply String.eqb_neq in N1, N2. unfold geographic, temperatures. rewrite N1, N2. split; reflexivity.
Qed.
Print Assumptions C210_places.
Print Assumptions C210_temperatures.
Print Assumptions C210_climate_refuted.
Print Assumptions C210_climate_partial.

(** The bulbs: at most 100 configurations of at most 38 bulbs, in their order, without the
    two leading columns of the sheet. *)
Theorem C210_bulbs : forall A version (df out : list (list A)), bulbs_config version df = Ok out ->
  (version = "v_2.2" \/ version = "v_2.3.3") /\
  forall i j v, (exists row, at_ out i row /\ at_ row j v) <-> (i < 100)%nat /\ (j < 38)%nat /\ exists row, at_ df i row /\ at_ row (j + 2) v.
Proof.
  intros A version df out H. unfold bulbs_config in H. destruct (_ || _)%bool eqn:E; [|discriminate]. split; [apply orb_true_iff in E; rewrite !String.eqb_eq in E; exact E|].
  match type of H with Ok ?x = Ok ?y => assert (Eo : y = x) by congruence; clear H; subst y end. intros i j v. split.
  - intros (row & H1 & H2). unfold at_ in H1. rewrite nth_error_map in H1. destruct (nth_error (firstn 100 df) i) as [r|] eqn:Er; [|discriminate]. cbn [option_map] in H1.
    match type of H1 with Some ?x = Some ?y => assert (Eo : y = x) by congruence; clear H1; subst y end. apply firstn_at in Er. destruct Er as [L Er]. apply firstn_at in H2. destruct H2 as [L2 H2]. split; [exact L|]. split; [exact L2|]. exists r. split; [exact Er|].
    unfold at_ in *. rewrite Nat.add_comm. destruct r as [|a0 [|a1 r]]; [destruct j; discriminate H2|destruct j; discriminate H2|exact H2].
  - intros (L & L2 & r & Er & H2). exists (firstn 38 (skipn 2 r)). split.
    + unfold at_. rewrite nth_error_map. rewrite (proj2 (firstn_at _ df 100 i r) (conj L Er)). reflexivity.
    + apply firstn_at. split; [exact L2|]. unfold at_ in *. rewrite Nat.add_comm in H2. destruct r as [|a0 [|a1 r]]; [discriminate H2|destruct j; discriminate H2|exact H2].
Qed.

(** Lighting: where every number is read. *)
Theorem C210_lighting : forall version s g, once (l_at35 s) -> once (l_at53 s) -> parse_lighting version s = Ok g ->
  ((version = "v_2.2" /\ at_ (l_at23 s) 5 (g_scalar g)) \/ (version = "v_2.3.3" /\ at_ (l_at23 s) 6 (g_scalar g))) /\
  top (l_at35 s) "occupancy" 6 (g_occupancy g) /\ top (l_at53 s) "probability" 9 (g_durations_cdf g) /\
  top (l_at53 s) "(minutes)" 9 (g_low g) /\ top (l_at53 s) "(minutes).1" 9 (g_high g) /\
  at_ (l_at3 s) 5 (g_threshold_mean g) /\ at_ (l_at3 s) 6 (g_threshold_std g).
Proof.
  assert (T : forall A (d : list (string * list A)) k n c, once d -> wcol d k = Ok c -> top d k n (firstn n c)).
  { intros A d k n c O H i v. rewrite firstn_at. rewrite (wcol_holds _ _ _ _ _ _ O H). tauto. }
  assert (EN : forall A (l : list A) i v, entry_of l i = Ok v -> at_ l i v). { intros A l i v. unfold entry_of, at_. destruct (nth_error l i); congruence. }
  intros version s g O1 O2 H. unfold parse_lighting in H. do 7 next H. match type of H with Ok ?x = Ok ?y => assert (Eo : y = x) by congruence; clear H; subst y end. cbn [g_scalar g_occupancy g_durations_cdf g_low g_high g_threshold_mean g_threshold_std].
  split. { destruct (String.eqb_spec version "v_2.2") as [->|]; [left; auto|]. destruct (String.eqb_spec version "v_2.3.3") as [->|]; [right; auto|discriminate]. }
  repeat (split; [now apply T|]). split; now apply EN.
Qed.

(** Another version has no lighting, whatever its sheets. *)
Theorem C210_lighting_refused : forall version, version <> "v_2.2" -> version <> "v_2.3.3" ->
  (forall s, parse_lighting version s = Err NotImplementedError) /\ (forall A (df : list (list A)), bulbs_config version df = Err NotImplementedError).
Proof.
  intros version N1 N2. apply String.eqb_neq in N1, N2. split; intros; unfold parse_lighting, bulbs_config; rewrite N1, N2; reflexivity.
Qed.
Print Assumptions C210_bulbs.
Print Assumptions C210_lighting.
Print Assumptions C210_lighting_refused.

(** Dwellings by number of residents: both columns of the first five rows. *)
Definition share_heading (version heading : string) : Prop :=
  (version = "v_2.2" /\ heading = "Probability of dwelling having this number of residents") \/
  (version = "v_2.3.3" /\ heading = "Probability of dwelling having this number of residents, in the UK").
Theorem C210_population : forall version kind df residents pdf total, once df -> population version kind df = Ok (residents, pdf, total) ->
  (kind = "crest" \/ kind = "resident_number") /\ top df "Number of residents" 5 residents /\ total = 25000000 /\
  exists heading, share_heading version heading /\ top df heading 5 pdf.
Proof.
  intros version kind df residents pdf total O H. unfold population in H. destruct (_ || _)%bool eqn:E; [|discriminate].
  split; [apply orb_true_iff in E; rewrite !String.eqb_eq in E; exact E|]. cbv zeta in H. next H. next H.
  assert (Er : c0 = residents) by congruence. assert (Ep : c = pdf) by congruence. assert (Et : total = 25000000) by congruence. subst c0 c total. clear H.
  split; [now apply cut_top|]. split; [reflexivity|].
  destruct (String.eqb_spec version "v_2.3.3") as [->|]; [eexists; split; [right; split; reflexivity|now apply cut_top]|].
  destruct (String.eqb_spec version "v_2.2") as [->|]; [eexists; split; [left; split; reflexivity|now apply cut_top]|discriminate].
Qed.

Theorem C210_population_refused : forall version kind df,
  ((kind <> "crest" /\ kind <> "resident_number") \/ (version <> "v_2.2" /\ version <> "v_2.3.3") -> population version kind df = Err ValueError) /\
  (forall k heading, share_heading version heading -> has_columns df k ["Number of residents"; heading] -> kind = "crest" \/ kind = "resident_number" ->
     exists residents pdf, population version kind df = Ok (residents, pdf, 25000000) /\ List.length residents = Nat.min 5 k /\ List.length pdf = Nat.min 5 k).
Proof.
  intros version kind df. split.
  - unfold population. intros [[N1 N2]|[N1 N2]]; apply String.eqb_neq in N1, N2; rewrite N1, N2; [reflexivity|]. destruct (_ || _)%bool; reflexivity.
  - intros k heading Hs Hc Hk. pose proof (cut_has _ _ 5 _ _ Hc) as M.
    destruct (wcol_has _ _ _ _ "Number of residents" M ltac:(cbn; tauto)) as (r & E1 & L1). destruct (wcol_has _ _ _ _ heading M ltac:(cbn; tauto)) as (q & E2 & L2).
    exists r, q. split; [|auto]. unfold population. replace (String.eqb kind "crest" || String.eqb kind "resident_number")%bool with true by (destruct Hk; subst; reflexivity).
    cbv zeta. destruct Hs as [[-> ->]|[-> ->]]; cbn [String.eqb Ascii.eqb Bool.eqb]; rewrite E2; cbn [bind]; rewrite E1; reflexivity.
Qed.
Print Assumptions C210_population.
Print Assumptions C210_population_refused.

Example C210_places_ex : match geographic "v_2.3.3" with Ok p => pl_country p | Err _ => "" end = "india".
Proof. reflexivity. Qed.
Example C210_bulbs_ex : bulbs_config "v_2.2" [[1; 2; 60; 40]; [2; 1; 11; 5]] = Ok [[60; 40]; [11; 5]].
Proof. reflexivity. Qed.
Example C210_lighting_ex : match parse_lighting "v_2.3.3" (LightSheet [0; 1; 2; 3; 4; 5; 6] [("occupancy", [0; 1; 2; 3; 4; 5; 6; 7])]
   [("probability", [1]); ("(minutes)", [2]); ("(minutes).1", [3])] [0; 1; 2; 3; 4; 60; 10]) with
  Ok g => (g_scalar g, g_occupancy g, g_low g, g_threshold_mean g) | Err _ => (0, [], [], 0) end = (6, [0; 1; 2; 3; 4; 5], [2], 60).
Proof. reflexivity. Qed.
Example C210_population_ex : population "v_2.2" "crest" [("Number of residents", [1; 2; 3; 4; 5; 6]); ("Probability of dwelling having this number of residents", [(1 # 2); (1 # 2); 0; 0; 0; 9])]
  = Ok ([1; 2; 3; 4; 5], [(1 # 2); (1 # 2); 0; 0; 0], 25000000) /\ population "v_2.2" "age" [] = Err ValueError.
Proof. split; reflexivity. Qed.
