(** * C155-C157, C162: dictionaries read from sheets, the German data. *)

From Coq Require Import String Ascii List ZArith QArith Bool Arith Lia Lqa.
From Verif Require Import Prelude PreludeFacts SpecBase SpecBaseFacts Sampling_Model Sampling_Spec Sampling_Proofs Heat_Model
  Appliance_Model OwnDict_Spec Crest_Spec Sheet_Model Sheet_Spec Sheet_Proofs.
Import ListNotations.
Open Scope string_scope.

(** ** C155 *)

(** Every entry is that of the last column of its name, without spaces, and there
    are no others. *)
Theorem C155_entries_partial : forall tf flags sh d, sheet_dict tf flags sh = Ok d -> forall k e,
  k <> HText "number" -> (forall f, In f flags -> k <> HText f) ->
  (dget heading_eqb d k = Some e <-> exists l l', last_column sh k l /\ e = Cells l' /\ Forall2 cell_stripped l l').
Proof. exact dict_entries. Qed.
Print Assumptions C155_entries_partial.

(** What stripping does: the spaces are gone, nothing else. *)
Theorem C155_stripped : forall s t, stripped s t -> no_space t /\ (no_space s -> t = s) /\ (forall t', stripped s t' -> t' = t).
Proof.
  intros s t H. split; [exact (stripped_no_space s t H)|]. split.
  - induction H as [|s t H IH|c s t N H IH]; intro S1; [reflexivity| |].
    + exfalso. exact (S1 "" s eq_refl).
    + f_equal. apply IH. intros a b ->. exact (S1 (String c a) b eq_refl).
  - intros t' H'. rewrite (stripped_fun _ _ H), (stripped_fun _ _ H'). reflexivity.
Qed.
Print Assumptions C155_stripped.

(** Flags: true exactly where the cell is a number other than zero, true, or empty. *)
Theorem C155_flags_partial : forall tf flags sh d f, sheet_dict tf flags sh = Ok d -> In f flags -> f <> "number" ->
  (forall l, last_column sh (HText f) l -> no_text l) ->
  (forall l, last_column sh (HText f) l -> exists bs, dget heading_eqb d (HText f) = Some (Flags bs) /\ Forall2 flag_of l bs) /\
  ((forall l, ~ last_column sh (HText f) l) -> dget heading_eqb d (HText f) = None).
Proof.
  intros tf flags sh d f H I N T. pose proof (fun e => dict_flags tf flags sh d H f e I N) as D. split.
  - intros l L. assert (P : plain sh) by (destruct (dict_inv _ _ _ _ H) as (items & _ & _ & H1 & _); apply columns_ok; eauto).
    assert (F : exists l', Forall2 cell_stripped l l').
    { destruct L as (a & h & b & Es & Nm & _). destruct (P h l) as [_ P2]; [rewrite Es; apply in_or_app; right; left; reflexivity|exact Nm|].
      clear - P2. induction l as [|c l IH]; [exists []; constructor|]. destruct IH as (l' & F); [intro X; apply P2; right; exact X|].
      destruct (stripped_ex c) as (c' & Hc); [intros ->; apply P2; left; reflexivity|]. exists (c' :: l'). constructor; assumption. }
    destruct F as (l' & F). destruct (truth_flag tf l l' (T l L) F) as (bs & M & G). exists bs. split; [|exact G]. apply D. exists l, l', bs. auto.
  - intros No. destruct (dget heading_eqb d (HText f)) as [e|] eqn:G; [|reflexivity]. destruct (proj1 (D e) eq_refl) as (l & _ & _ & L & _). exfalso. exact (No l L).
Qed.
Print Assumptions C155_flags_partial.

Theorem C155_number : forall tf flags sh d n, ~ In "name" flags -> rows sh n -> sheet_dict tf flags sh = Ok d ->
  dget heading_eqb d (HText "number") = Some (Number (Z.of_nat n)) /\ NoDup (map fst d).
Proof. intros tf flags sh d n N R H. split; [exact (dict_number tf flags sh d n N R H)|exact (dict_nodup tf flags sh d H)]. Qed.
Print Assumptions C155_number.

(** When it succeeds, and the errors. *)
Theorem C155_errors : forall tf flags sh, (forall f l, In f flags -> last_column sh (HText f) l -> no_text l) ->
  (~ plain sh -> sheet_dict tf flags sh = Err NotImplementedError) /\
  (plain sh -> (exists l, last_column sh (HText "name") l) -> exists d, sheet_dict tf flags sh = Ok d) /\
  (plain sh -> (forall l, ~ last_column sh (HText "name") l) -> sheet_dict tf flags sh = Err KeyError).
Proof.
  intros tf flags sh T. split; [exact (dict_not_plain tf flags sh)|]. split; intro P; [exact (proj1 (dict_total tf flags sh P T))|exact (proj2 (dict_total tf flags sh P T))].
Qed.
Print Assumptions C155_errors.

(** An empty cell counts as a flag. *)
Theorem C155_empty_flag_refuted : exists sh d, last_column sh (HText "uses_water") [CNan] /\
  sheet_dict (fun _ => Err ValueError) input_flags sh = Ok d /\ dget heading_eqb d (HText "uses_water") = Some (Flags [true]).
Proof.
  exists [(HText "name", [CText "oven"]); (HText "uses_water", [CNan])]. eexists. split.
  - exists [(HText "name", [CText "oven"])], (HText "uses_water"), []. split; [reflexivity|]. split; [intros t E; discriminate|].
    split; [constructor; apply (delete_stripped "uses_water")|intros h l []].
  - split; vm_compute; reflexivity.
Qed.
Print Assumptions C155_empty_flag_refuted.

(** Of two columns whose names differ by spaces one is lost. *)
Theorem C155_collision_refuted : exists sh d l l', NoDup (map fst sh) /\ plain sh /\ In (HText "power max", l) sh /\ In (HText "powermax", l') sh /\ l <> l' /\
  sheet_dict (fun _ => Err ValueError) input_flags sh = Ok d /\ forall k e, In (k, e) d -> e <> Cells l.
Proof.
  exists [(HText "name", [CText "oven"]); (HText "power max", [CNum 2]); (HText "powermax", [CNum 3])].
  eexists. exists [CNum 2], [CNum 3]. split; [repeat constructor; cbn; intuition discriminate|]. split.
  - intros h l [E|[E|[E|[]]]] _; injection E as <- <-; (split; [discriminate|intros [X|[]]; discriminate]).
  - split; [cbn; auto|]. split; [cbn; auto|]. split; [discriminate|]. split; [vm_compute; reflexivity|].
    intros k e [E|[E|[E|[]]]]; injection E as _ <-; discriminate.
Qed.
Print Assumptions C155_collision_refuted.

Example C155_example :
  sheet_dict (fun _ => Err ValueError) german_flags
    [(HText "Unnamed: 0", [CText "x"; COther]); (HText "name", [CText "Electric oven"; CText "TV"]); (HText " uses_water", [CNum 0; CBool true]);
     (HText "target cycle", [CNum 3; CNan])] =
    Ok [(HText "name", Cells [CText "Electricoven"; CText "TV"]); (HText "uses_water", Flags [false; true]);
        (HText "targetcycle", Cells [CNum 3; CNan]); (HText "number", Number 2)] /\
  sheet_dict (fun _ => Err ValueError) input_flags [(HText "type", [CText "oven"])] = Err KeyError /\
  sheet_dict (fun _ => Err ValueError) [] [(HText "name", [COther])] = Err NotImplementedError.
Proof. repeat split. Qed.

(** ** C156 *)

(** The targets of pairwise different types are read back. *)
Theorem C156_round_trip_partial : forall types targets defaults, NoDup types -> ~ In "" types -> length types = length targets ->
  get_target_from_dict types defaults (yearly_targets types targets) = Ok targets.
Proof. exact targets_round_trip. Qed.
Print Assumptions C156_round_trip_partial.

(** From the sheet itself. *)
Theorem C156_sheet_partial : forall tf flags sh d types targets lt lv defaults, sheet_dict tf flags sh = Ok d ->
  ~ In "type" flags -> ~ In "target_cycle_year" flags ->
  last_column sh (HText "type") lt -> Forall2 cell_stripped lt (map CText types) ->
  last_column sh (HText "target_cycle_year") lv -> Forall2 cell_stripped lv (map CNum targets) ->
  NoDup types -> ~ In "" types -> length types = length targets ->
  exists t, load_yearly_targets d = Ok t /\ get_target_from_dict types defaults t = Ok targets.
Proof.
  intros tf flags sh d types targets lt lv defaults H N1 N2 L1 F1 L2 F2 Nd Ne Le.
  assert (G1 : dget heading_eqb d (HText "type") = Some (Cells (map CText types))).
  { apply (dict_entries _ _ _ _ H); [discriminate|intros f I E; injection E as <-; exact (N1 I)|]. exists lt, (map CText types). auto. }
  assert (G2 : dget heading_eqb d (HText "target_cycle_year") = Some (Cells (map CNum targets))).
  { apply (dict_entries _ _ _ _ H); [discriminate|intros f I E; injection E as <-; exact (N2 I)|]. exists lv, (map CNum targets). auto. }
  exists (yearly_targets types targets). split; [|apply targets_round_trip; assumption].
  unfold load_yearly_targets. rewrite G1, G2. cbn [texts numbers].
  replace (mapM (fun c => match c with CText s => Ok s | _ => Err TypeError end) (map CText types)) with (@Ok (list string) types).
  - replace (mapM (fun c => match c with CNum q => Ok q | _ => Err TypeError end) (map CNum targets)) with (@Ok (list Q) targets); [reflexivity|].
    clear. induction targets as [|x l IH]; [reflexivity|]. cbn. rewrite <- IH. reflexivity.
  - clear. induction types as [|x l IH]; [reflexivity|]. cbn. rewrite <- IH. reflexivity.
Qed.
Print Assumptions C156_sheet_partial.

(** A sheet without types or targets has no yearly targets. *)
Theorem C156_missing : forall tf flags sh d, sheet_dict tf flags sh = Ok d ->
  ((forall l, ~ last_column sh (HText "type") l) -> load_yearly_targets d = Err KeyError) /\
  (forall types lt, ~ In "type" flags -> last_column sh (HText "type") lt -> Forall2 cell_stripped lt (map CText types) ->
    (forall l, ~ last_column sh (HText "target_cycle_year") l) -> load_yearly_targets d = Err KeyError).
Proof.
  intros tf flags sh d H.
  assert (A : forall k, k <> "number" -> (forall l, ~ last_column sh (HText k) l) -> dget heading_eqb d (HText k) = None).
  { intros k Nk N. destruct (dget heading_eqb d (HText k)) as [e|] eqn:G; [exfalso|reflexivity]. destruct (in_dec string_dec k flags) as [I|I].
    - destruct (proj1 (dict_flags tf flags sh d H k e I Nk) G) as (l & _ & _ & L & _). exact (N l L).
    - apply (dict_entries _ _ _ _ H) in G; [|congruence|intros f F E; injection E as <-; exact (I F)]. destruct G as (l & _ & L & _). exact (N l L). }
  split.
  - intro N. unfold load_yearly_targets. rewrite (A "type" ltac:(discriminate) N). reflexivity.
  - intros types lt N1 L1 F1 N. assert (G1 : dget heading_eqb d (HText "type") = Some (Cells (map CText types))).
    { apply (dict_entries _ _ _ _ H); [discriminate|intros f I E; injection E as <-; exact (N1 I)|]. exists lt, (map CText types). auto. }
    unfold load_yearly_targets. rewrite G1, (A "target_cycle_year" ltac:(discriminate) N). cbn [texts numbers].
    replace (mapM (fun c => match c with CText s => Ok s | _ => Err TypeError end) (map CText types)) with (@Ok (list string) types); [reflexivity|].
    clear. induction types as [|x l IH]; [reflexivity|]. cbn. rewrite <- IH. reflexivity.
Qed.
Print Assumptions C156_missing.

(** Of repeated types the first gets the last target, the others zero. *)
Theorem C156_repeated : forall types targets defaults, no_numbered types -> length types = length targets ->
  exists out, get_target_from_dict types defaults (yearly_targets types targets) = Ok out /\ length out = length types /\
    forall i t v, at_ types i t -> at_ out i v ->
      (In t (firstn i types) -> v = 0) /\
      (~ In t (firstn i types) -> exists j, at_ types j t /\ at_ targets j v /\ forall j', (j < j')%nat -> ~ at_ types j' t).
Proof. exact targets_repeated. Qed.
Print Assumptions C156_repeated.

Theorem C156_repeated_refuted : exists types targets defaults, length types = length targets /\ length defaults = length types /\
  exists out, get_target_from_dict types defaults (yearly_targets types targets) = Ok out /\ out <> targets /\ ~ total out == total targets.
Proof.
  exists ["tv"; "oven"; "tv"], [100; 50; 200], [0; 0; 0]. split; [reflexivity|]. split; [reflexivity|]. eexists. split; [vm_compute; reflexivity|].
  split; [discriminate|]. vm_compute. discriminate.
Qed.
Print Assumptions C156_repeated_refuted.

Example C156_example :
  get_target_from_dict ["tv"; "small_tv"; "tv"] [7; 7; 7] (yearly_targets ["tv"; "small_tv"; "tv"] [100; 50; 200]) = Ok [200; 50; 0] /\
  get_target_from_dict ["tv"; "tv_2"] [7; 7] (yearly_targets ["tv"; "tv_2"] [100; 50]) = Ok [100; 50].
Proof. split; vm_compute; reflexivity. Qed.

(** ** C157 *)

Lemma pick_falls : forall p values table u, p <> [] -> nonneg p -> total p == 1 ->
  eqQ_list (map (fun x => 100 * x) p) (map snd table) -> values = map fst table -> 0 <= u -> u < 1 ->
  exists x, pick (cumsum p) values u = Ok x /\ falls_in table u x /\ In x values.
Proof.
  intros p values table u Hne Hn Ht E -> H0 H1.
  assert (Hu : u < total p) by (rewrite Ht; exact H1).
  assert (X : exists i, mc_one (cumsum p) u = Ok i).
  { destruct (mc_from_1d_cdf_all (cumsum p) [u]) as (out & M & Lo & _); [destruct p; [congruence|discriminate]|].
    unfold mc_from_1d_cdf in M. destruct (cumsum p) as [|c cs] eqn:Ec; [discriminate|]. cbn [mapM] in M. destruct (mc_one (c :: cs) u) as [i|] eqn:Em; [eauto|discriminate]. }
  destruct X as (i & Hi). unfold pick. rewrite Hi. cbn [bind].
  assert (M : mc_from_1d_pdf p [u] = Ok [i]).
  { unfold mc_from_1d_pdf, mc_from_1d_cdf. destruct (cumsum p) as [|c cs] eqn:Ec; [destruct p; [congruence|discriminate]|]. cbn [mapM]. rewrite Hi. reflexivity. }
  apply (mc_pdf_one_iff p u i Hne Hn H0 Hu) in M as (Li & M1 & M2).
  assert (Lt : length table = length p). { rewrite <- (map_length snd table), <- (map_length (fun x => 100 * x) p). symmetry. clear - E. induction E; cbn; congruence. }
  destruct (lt_at _ table i) as [[x share] Hx]; [lia|].
  assert (Ex : nth_error (map fst table) i = Some x) by (rewrite nth_error_map; unfold at_ in Hx; rewrite Hx; reflexivity). rewrite Ex.
  exists x. split; [reflexivity|]. split; [|apply nth_error_In in Ex; exact Ex].
  unfold at_ in Hx. apply nth_error_split in Hx as (a & b & Et & La). exists a, share, b. split; [exact Et|].
  assert (S1 : forall k, total (firstn k (map snd table)) == 100 * mass_before p k).
  { clear - E. intro k. unfold mass_before. revert k. revert E. generalize (map snd table) as m. clear table. induction p as [|y p IH]; intros m E k.
    - inversion E; subst. rewrite !firstn_nil. cbn. ring.
    - inversion E as [|? y' ? l' E1 E2]; subst. cbn beta in E1. destruct k as [|k]; [cbn; ring|]. cbn [firstn total]. pose proof (IH _ E2 k) as IHk. change (y' + total (firstn k l') == 100 * (y + total (firstn k p))). lra. }
  pose proof (S1 i) as Si. pose proof (S1 (S i)) as Ssi. subst table. rewrite map_app in Si, Ssi. cbn [map snd] in Si, Ssi.
  assert (Lm : length (map snd a) = i) by (rewrite map_length; exact La).
  rewrite firstn_app, Lm, Nat.sub_diag, firstn_O, app_nil_r, <- Lm, firstn_all in Si.
  rewrite firstn_app, Lm in Ssi. replace (S i - i)%nat with 1%nat in Ssi by lia. rewrite (firstn_all2 (map snd a)) in Ssi by lia. cbn [firstn] in Ssi.
  assert (Ta : forall l m, total (l ++ m)%list == total l + total m). { clear. induction l as [|y l IH]; intro m; [unfold total; cbn [fold_right List.app]; ring|]. unfold total in *. cbn [fold_right List.app]. rewrite IH. ring. }
  rewrite Ta in Ssi. unfold total in Ssi at 2. cbn [fold_right] in Ssi. rewrite Lm in Si. split; lra.
Qed.

Theorem C157_temperatures : forall u v, 0 <= u < 1 -> 0 <= v < 1 -> exists h w,
  initialize_targets home_cdf home_values water_cdf water_values emitter_setpoint u v = Ok (Targets (Some h) (Some w) (Some 50)) /\
  falls_in rooms u h /\ falls_in waters v w /\ 13 <= h <= 27 /\ 42 <= w <= 62.
Proof.
  intros u v [U1 U2] [V1 V2].
  destruct (pick_falls [1#100; 2#100; 1#100; 3#100; 4#100; 8#100; 16#100; 14#100; 16#100; 16#100; 9#100; 5#100; 3#100; 1#100; 1#100] home_values rooms u)
    as (h & Eh & Fh & Ih); try assumption; try reflexivity; [discriminate|apply nonneg_Forall; repeat constructor; cbn; lra|repeat constructor|].
  destruct (pick_falls [4#100; 4#100; 11#100; 8#100; 13#100; 9#100; 14#100; 11#100; 8#100; 10#100; 4#100; 4#100] water_values waters v)
    as (w & Ew & Fw & Iw); try assumption; try reflexivity; [discriminate|apply nonneg_Forall; repeat constructor; cbn; lra|repeat constructor|].
  exists h, w. unfold initialize_targets, home_cdf, water_cdf. rewrite Eh. cbn [bind]. rewrite Ew. cbn [bind]. split; [reflexivity|]. split; [exact Fh|]. split; [exact Fw|].
  split.
  - repeat (destruct Ih as [<-|Ih]; [lra|]). destruct Ih.
  - repeat (destruct Iw as [<-|Iw]; [lra|]). destruct Iw.
Qed.
Print Assumptions C157_temperatures.

(** The cumulative distributions increase to one and have one value per entry. *)
Theorem C157_distributions : nondecreasing home_cdf /\ nondecreasing water_cdf /\ last home_cdf 0 == 1 /\ last water_cdf 0 == 1 /\
  length home_cdf = length home_values /\ length water_cdf = length water_values.
Proof.
  assert (N : forall l : list Q, forallb (fun xy => Qle_bool (fst xy) (snd xy)) (combine l (tl l)) = true -> nondecreasing l).
  { intros l H i x y Hx Hy. rewrite forallb_forall in H. specialize (H (x, y)). apply Qle_bool_iff. apply H.
    clear H. unfold at_ in *. revert i Hx Hy. induction l as [|a l IH]; intros [|i] Hx Hy; try discriminate; cbn in Hx, Hy.
    - injection Hx as ->. destruct l as [|b l]; [discriminate|]. cbn in Hy. injection Hy as ->. left. reflexivity.
    - destruct l as [|b l]; [destruct i; discriminate|]. right. exact (IH i Hx Hy). }
  split; [apply N; vm_compute; reflexivity|]. split; [apply N; vm_compute; reflexivity|]. repeat split; vm_compute; reflexivity.
Qed.
Print Assumptions C157_distributions.

(** Every circuit has a deadband, a whole number of degrees. *)
Theorem C157_deadbands : dget String.eqb deadbands "space_heating" = Some 1%Z /\ dget String.eqb deadbands "hot_water" = Some 5%Z /\
  dget String.eqb deadbands "emitter" = Some 5%Z /\ forall k z, dget String.eqb deadbands k = Some z -> (0 < z)%Z /\ In k ["space_heating"; "hot_water"; "emitter"].
Proof.
  repeat split; try reflexivity; unfold deadbands in H; cbn [dget] in H.
  - destruct (String.eqb k "space_heating"); [injection H as <-; reflexivity|]. destruct (String.eqb k "hot_water"); [injection H as <-; reflexivity|]. destruct (String.eqb k "emitter"); [injection H as <-; reflexivity|discriminate].
  - destruct (String.eqb_spec k "space_heating"); [cbn; auto|]. destruct (String.eqb_spec k "hot_water"); [cbn; auto|]. destruct (String.eqb_spec k "emitter"); [cbn; auto|discriminate].
Qed.
Print Assumptions C157_deadbands.

Example C157_example :
  initialize_targets home_cdf home_values water_cdf water_values emitter_setpoint 0 (999#1000) = Ok (Targets (Some 13) (Some 62) (Some 50)) /\
  initialize_targets home_cdf home_values water_cdf water_values emitter_setpoint (1#2) (8#100) = Ok (Targets (Some 21) (Some 45) (Some 50)).
Proof. split; vm_compute; reflexivity. Qed.

(** ** C162 *)

Theorem C162_versions : forall v, (exists a, german_version v = Ok a) <-> v = "v0.1" \/ v = "vBottaccioli".
Proof.
  intro v. unfold german_version. destruct (String.eqb_spec v "v0.1") as [->|N1]; [split; [auto|eauto]|].
  destruct (String.eqb_spec v "vBottaccioli") as [->|N2]; [split; [auto|eauto]|]. split; [intros (a & H); discriminate|intros [X|X]; congruence].
Qed.
Print Assumptions C162_versions.

Theorem C162_activities : german_version "v0.1" = Ok "Sparse9States" /\ german_version "vBottaccioli" = Ok "Bottaccioli2018" /\
  forall v, v <> "v0.1" -> v <> "vBottaccioli" -> german_version v = Err ValueError /\ load_fisher_lighting v = Err ValueError.
Proof.
  split; [reflexivity|]. split; [reflexivity|]. intros v N1 N2. apply String.eqb_neq in N1, N2. unfold load_fisher_lighting, german_version. rewrite N1, N2. auto.
Qed.
Print Assumptions C162_activities.

(** Every accepted version has appliances: its guard never refuses. *)
Theorem C162_appliances : forall tf v sh a, german_version v = Ok a -> german_appliances tf v sh = sheet_dict tf german_flags sh.
Proof.
  intros tf v sh a H. unfold german_version in H. unfold german_appliances. destruct (String.eqb v "v0.1"); [reflexivity|].
  destruct (String.eqb v "vBottaccioli"); [reflexivity|discriminate].
Qed.
Print Assumptions C162_appliances.

Lemma last_unique : forall sh k l l', last_column sh k l -> last_column sh k l' -> l = l'.
Proof.
  intros sh k l l' (a & h & b & -> & N & S & X) (a' & h' & b' & E & N' & S' & X'). revert a' E. induction a as [|x a IH]; intros [|x' a'] E; cbn [List.app] in E; injection E.
  - intros _ _. congruence.
  - intros -> _. exfalso. exact (X h' l' ltac:(apply in_or_app; right; left; reflexivity) N' S').
  - intros <- _. exfalso. exact (X' h l ltac:(apply in_or_app; right; left; reflexivity) N S).
  - intros E' _. exact (IH a' E').
Qed.

(** The three flags of its sheet are truth values, the other columns cells. *)
Theorem C162_flags : forall tf v sh d k l, german_appliances tf v sh = Ok d -> last_column sh (HText k) l -> no_text l -> k <> "number" ->
  (In k ["inactive_switch_off"; "uses_water"; "probabilistic"] -> exists bs, dget heading_eqb d (HText k) = Some (Flags bs) /\ Forall2 flag_of l bs) /\
  (~ In k ["inactive_switch_off"; "uses_water"; "probabilistic"] -> forall l', Forall2 cell_stripped l l' -> dget heading_eqb d (HText k) = Some (Cells l')).
Proof.
  intros tf v sh d k l H L T N. unfold german_appliances in H. destruct (String.eqb v "v0.1" || String.eqb v "vBottaccioli"); [|discriminate]. split.
  - intro I. apply (proj1 (C155_flags_partial tf german_flags sh d k H I N (fun l' L' => eq_ind l _ T l' (last_unique sh (HText k) l l' L L'))) l L).
  - intros I l' F. apply (dict_entries _ _ _ _ H); [congruence|intros f J E; injection E as <-; exact (I J)|]. exists l, l'. auto.
Qed.
Print Assumptions C162_flags.

(** The missing lighting data is not the documented error. *)
Theorem C162_fisher_refuted : exists v a, german_version v = Ok a /\ load_fisher_lighting v = Err IndexError /\ IndexError <> NotImplementedError.
Proof. exists "vBottaccioli", "Bottaccioli2018". repeat split; discriminate. Qed.
Print Assumptions C162_fisher_refuted.

Theorem C162_fisher_partial : forall v d, load_fisher_lighting v = Ok d -> v = "v0.1" /\
  exists lo hi p, d = [("irradiation_threshold_min", lo); ("irradiation_threshold_max", hi); ("individual_light_use", p)] /\
    (lo = 30 /\ hi = 60 /\ p = 12)%Z.
Proof.
  intros v d H. unfold load_fisher_lighting, fisher_lighting in H. destruct (german_version v); [|discriminate]. cbn [bind] in H.
  destruct (String.eqb_spec v "v0.1") as [->|N]; [|discriminate]. injection H as <-. split; [reflexivity|]. exists 30%Z, 60%Z, 12%Z. auto.
Qed.
Print Assumptions C162_fisher_partial.

Example C162_example : load_fisher_lighting "v0.2" = Err ValueError /\
  load_fisher_lighting "v0.1" = Ok [("irradiation_threshold_min", 30%Z); ("irradiation_threshold_max", 60%Z); ("individual_light_use", 12%Z)].
Proof. split; reflexivity. Qed.
