(** * Properties of files kept by the loaders (C158-C161, C163). *)

From Coq Require Import String Ascii List ZArith QArith Bool Arith Lia.
From Verif Require Import Prelude PreludeFacts SpecBase SpecBaseFacts Subgroup_Model Subgroup_Spec Loader_Model Loader_Spec Loader_Proofs Loader_FileProofs Store_Model Store_Spec Store_Proofs Store_CacheProofs.
Import ListNotations.
Local Open Scope string_scope.

(** ** C158: climate of a country *)

(** With one spelling and one weighting for the country, the climate is the
    newest download, whatever is done with other countries. *)
Theorem C158_newest_partial : forall (Raw Data : Type) (parse : Raw -> result Data) cs name w code, spells name code -> one_spelling name w cs -> made name cs ->
  snd (climate parse name w (ninja_run parse cs)) = match newest code w cs with Some r => parse r | None => Err FileNotFoundError end.
Proof. intros Raw Data parse cs name w code. apply climate_main. Qed.

(** The raw files are the newest downloads, without conditions. *)
Theorem C158_raw : forall (Raw Data : Type) (parse : Raw -> result Data) cs code w, String.length code = 2%nat ->
  dget String.eqb (n_raw (ninja_run parse cs)) (raw_name code w) = newest code w cs.
Proof. intros Raw Data parse cs code w. apply raw_main. Qed.

(** An unknown country is refused before anything is downloaded; a failing
    download is reported and changes no data. *)
Theorem C158_refused : forall (Raw Data : Type) server name w update (d : ninja_disk Raw Data),
  ((forall code, ~ spells name code) -> snd (construct server name w update d) = Err NotImplementedError /\ n_raw (fst (construct server name w update d)) = n_raw d) /\
  (forall code e, spells name code -> server code w = Err e -> dget String.eqb (n_raw d) (raw_name code w) = None \/ update = true ->
     snd (construct server name w update d) = Err e /\ n_raw (fst (construct server name w update d)) = n_raw d /\
     forall n x, dget String.eqb (n_parsed (fst (construct server name w update d))) n = Some (Some x) <-> dget String.eqb (n_parsed d) n = Some (Some x)).
Proof.
  intros Raw Data server name w update d. unfold construct.
  set (d1 := match dget String.eqb (n_parsed d) name with Some _ => d | None => mkNinja (n_raw d) (dset String.eqb (n_parsed d) name None) end).
  assert (R : n_raw d1 = n_raw d) by (unfold d1; destruct (dget String.eqb (n_parsed d) name); reflexivity). split.
  - intro N. destruct (country_code name) as [c|e] eqn:C; [exfalso; apply (N c), code_spells; exact C|]. cbn [fst snd]. split; [|exact R].
    unfold country_code in C. destruct (Nat.eqb (String.length name) 2); [discriminate|]. destruct (dget String.eqb country_table name); congruence.
  - intros code e S E U. apply code_spells in S. rewrite S.
    replace (dmem String.eqb (n_raw d1) (raw_name code w) && negb update) with false.
    2:{ unfold dmem. rewrite R. destruct U as [U|U]; [rewrite U; reflexivity|rewrite U, andb_false_r; reflexivity]. }
    rewrite E. cbn [fst snd]. split; [reflexivity|]. split; [exact R|]. intros n x. unfold d1. destruct (dget String.eqb (n_parsed d) name) eqn:G; [reflexivity|]. cbn [n_parsed]. rewrite get_put.
    destruct (String.eqb_spec name n) as [<-|]; [rewrite G; split; discriminate|reflexivity].
Qed.

(** The parsed data of a country are kept without the weighting: after asking for
    another weighting, or by the code after a change under the name, the data are
    not those asked for. *)
Definition same (x : nat) : result nat := Ok x.
Definition one_server (x : nat) : string -> string -> result nat := fun code w => Ok (x + String.length w)%nat.
Theorem C158_weighting_refuted : exists cs name code w r r', spells name code /\ made name cs /\ newest code w cs = Some r /\
  snd (climate same name w (ninja_run same cs)) = Ok r' /\ r <> r'.
Proof.
  exists [Make "germany" "population" false (one_server 0); Climate "germany" "population"; Make "germany" "land_area" false (one_server 0); Climate "germany" "land_area"; Make "germany" "population" false (one_server 0)],
    "germany", "DE", "population", 10%nat, 9%nat.
  split; [right; left; reflexivity|]. split; [exists "population", false, (one_server 0); left; reflexivity|]. split; [vm_compute; reflexivity|]. split; [vm_compute; reflexivity|discriminate].
Qed.
Theorem C158_spelling_refuted : exists cs name code w r r', spells name code /\ made name cs /\ newest code w cs = Some r /\
  (forall c n v, In c cs -> about c = (n, v) -> v = w) /\ snd (climate same name w (ninja_run same cs)) = Ok r' /\ r <> r'.
Proof.
  exists [Make "DE" "population" false (one_server 0); Climate "DE" "population"; Make "germany" "population" true (one_server 5)], "DE", "DE", "population", 15%nat, 10%nat.
  split; [left; split; reflexivity|]. split; [exists "population", false, (one_server 0); left; reflexivity|]. split; [vm_compute; reflexivity|].
  split; [intros c n v [<-|[<-|[<-|[]]]]; cbn; congruence|]. split; [vm_compute; reflexivity|discriminate].
Qed.

(** The columns: radiation is the sum of both columns, clearness is the cloud
    cover, the others are taken as they are; a missing column is a KeyError. *)
Theorem C158_columns : forall csv : list (string * list Q),
  let needed := ["time"; "precipitation"; "snowfall"; "snow_mass"; "cloud_cover"; "air_density"; "temperature"; "irradiance_surface"; "irradiance_toa"] in
  ((exists k, In k needed /\ dget String.eqb csv k = None) -> parse_climate csv = Err KeyError) /\
  ((forall k, In k needed -> dget String.eqb csv k <> None) -> exists out, parse_climate csv = Ok out /\
     map fst out = ["datetime"; "precipitation"; "snowfall"; "snow_mass"; "clearness"; "air_density"; "outside_temperature"; "irradiance"] /\
     (forall k k', In (k, k') [("datetime", "time"); ("precipitation", "precipitation"); ("snowfall", "snowfall"); ("snow_mass", "snow_mass"); ("clearness", "cloud_cover"); ("air_density", "air_density"); ("outside_temperature", "temperature")] ->
        dget String.eqb out k = dget String.eqb csv k') /\
     forall i x y, (exists l, dget String.eqb csv "irradiance_surface" = Some l /\ at_ l i x) -> (exists l, dget String.eqb csv "irradiance_toa" = Some l /\ at_ l i y) ->
        exists l z, dget String.eqb out "irradiance" = Some l /\ at_ l i z /\ (z == x + y)%Q).
Proof.
  intros csv needed. split.
  - intros (k & I & N). unfold parse_climate, col.
    destruct I as [X|[X|[X|[X|[X|[X|[X|[X|[X|[]]]]]]]]]]; subst k; rewrite ?N; repeat match goal with |- context [dget String.eqb csv ?k] => destruct (dget String.eqb csv k); cbn [bind]; try reflexivity; try discriminate end.
  - intro F. unfold parse_climate, col.
    repeat match goal with |- context [match dget String.eqb csv ?k with _ => _ end] => let l := fresh "l" in let E := fresh "E" in destruct (dget String.eqb csv k) as [l|] eqn:E; [cbn [bind]|exfalso; apply (F k); [cbn; tauto|exact E]] end.
    eexists. split; [reflexivity|]. split; [reflexivity|]. split.
    + intros k k' I. cbn [In] in I. repeat match goal with H : _ \/ _ |- _ => destruct H as [H|H] | H : False |- _ => contradiction end; injection I as <- <-; symmetry; assumption.
    + intros i x y (a & A & Ai) (b & B & Bi). assert (a = l6) by congruence. assert (b = l7) by congruence. subst a b. eexists. exists (y + x)%Q. split; [reflexivity|]. split; [|ring].
      clear - Ai Bi. unfold at_ in *. revert l6 l7 Ai Bi. induction i as [|i IH]; intros [|a l6] [|b l7] Ai Bi; cbn in *; try discriminate; [congruence|]. apply IH; assumption.
Qed.

Example C158_example : let calls := [Make "germany" "population" false (one_server 0); Climate "germany" "population"; Make "england" "land_area" true (one_server 3); Make "germany" "population" true (one_server 7)] in
  newest "DE" "population" calls = Some 17%nat /\ newest "GB" "land_area" calls = Some 12%nat /\ newest "DE" "land_area" calls = None /\
  snd (climate same "germany" "population" (ninja_run same calls)) = Ok 17%nat /\
  snd (construct (one_server 0) "france" "population" false (ninja_run same calls)) = Err NotImplementedError /\
  snd (climate same "england" "population" (ninja_run same calls)) = Err FileNotFoundError.
Proof. vm_compute. repeat split. Qed.
Example C158_columns_example : bind (parse_climate [("time", [1]); ("precipitation", [2]); ("snowfall", [3]); ("snow_mass", [4]); ("cloud_cover", [5]); ("air_density", [6]); ("temperature", [7]); ("irradiance_surface", [8]); ("irradiance_toa", [9])])
  (fun out => Ok (dget String.eqb out "irradiance", dget String.eqb out "clearness")) = Ok (Some [17], Some [5])%Q.
Proof. reflexivity. Qed.

(** ** C159: saved arrays and step sizes *)

Lemma npy_npz : forall a b : string, a ++ ".npy" <> b ++ ".npz".
Proof.
  intros a b E. apply (f_equal list_ascii_of_string) in E. rewrite !Subgroup_NameProofs.chars_app in E. apply (f_equal (@rev ascii)) in E. rewrite !rev_app_distr in E. discriminate.
Qed.

Section C159.
Context {A : Type}.
Variable asarray : list A -> result A.
Variable is_object : A -> bool.
Notation save := (save_parsed asarray).
Notation load := (load_parsed is_object).

(** An array, or a list made one array, is read back, whatever else is there. *)
Theorem C159_array : forall d name pickle a, bare name -> (is_object a = true -> pickle = true) ->
  exists d', save d name (OneArray a) false false = Ok d' /\ load pickle d' name = Ok (LArray a).
Proof.
  intros d name pickle a B P. cbn [save_parsed orb]. rewrite (bare_npy name B). eexists. split; [reflexivity|]. unfold load_parsed, load_npy. rewrite get_put, String.eqb_refl.
  destruct (is_object a); [rewrite (P eq_refl)|]; reflexivity.
Qed.
Theorem C159_one_array : forall d name pickle l a, bare name -> asarray l = Ok a -> (is_object a = true -> pickle = true) ->
  exists d', save d name (Arrays l) false false = Ok d' /\ load pickle d' name = Ok (LArray a).
Proof.
  intros d name pickle l a B E P. cbn [save_parsed orb]. rewrite E. cbn [bind]. rewrite (bare_npy name B). eexists. split; [reflexivity|]. unfold load_parsed, load_npy. rewrite get_put, String.eqb_refl.
  destruct (is_object a); [rewrite (P eq_refl)|]; reflexivity.
Qed.

(** Several arrays are read back from an archive when there is no npy file of the
    name. *)
Theorem C159_archive_partial : forall d name pickle l npz compress, bare name -> npz || compress = true -> dget String.eqb d (name ++ ".npy") = None ->
  ((exists a, In a l /\ is_object a = true) -> pickle = true) ->
  exists d', save d name (Arrays l) npz compress = Ok d' /\ load pickle d' name = Ok (LArrays l) /\
    (forall a, l = [a] -> save d name (OneArray a) npz compress = Ok d').
Proof.
  intros d name pickle l npz compress B O N P. cbn [save_parsed]. rewrite orb_comm, O, (bare_npz name B). eexists. split; [reflexivity|]. split; [|intros a ->; reflexivity].
  unfold load_parsed, load_npy, load_npz. rewrite get_put. rewrite (proj2 (String.eqb_neq (name ++ ".npz") (name ++ ".npy"))). 2:{ intro E. apply prefix_cancel in E. discriminate. }
  rewrite N, get_put, String.eqb_refl. destruct (existsb is_object l) eqn:X; [|reflexivity]. apply existsb_exists in X. rewrite (P X). reflexivity.
Qed.

(** An npy file of the same name hides the archive. *)
Theorem C159_hidden_refuted : forall d name pickle a l, bare name -> is_object a = false -> exists d1 d2,
  save d name (OneArray a) false false = Ok d1 /\ save d1 name (Arrays l) true false = Ok d2 /\ load pickle d2 name = Ok (LArray a).
Proof.
  intros d name pickle a l B P. cbn [save_parsed orb]. rewrite (bare_npy name B), (bare_npz name B). eexists. eexists. split; [reflexivity|]. split; [reflexivity|].
  unfold load_parsed, load_npy. rewrite !get_put. rewrite (proj2 (String.eqb_neq (name ++ ".npz") (name ++ ".npy"))), String.eqb_refl, P. 2:{ intro E. apply prefix_cancel in E. discriminate. } reflexivity.
Qed.

(** A name with the suffix of numpy is written but not found again. *)
Theorem C159_suffix_refuted : forall a : A, exists d name d', save d name (OneArray a) false false = Ok d' /\ forall pickle, load pickle d' name = Err FileNotFoundError.
Proof. intro a. exists [], "profiles.npy". eexists. split; [reflexivity|]. intro pickle. reflexivity. Qed.

(** Other names are read as before. *)
Theorem C159_frame : forall d name x npz compress d' name' pickle, bare name -> bare name' -> name <> name' -> save d name x npz compress = Ok d' -> load pickle d' name' = load pickle d name'.
Proof.
  intros d name x npz compress d' name' pickle B B' N E.
  assert (X : exists f, d' = dset String.eqb d (name ++ ".npy") f \/ d' = dset String.eqb d (name ++ ".npz") f).
  { destruct x as [a|l|]; cbn [save_parsed] in E; rewrite ?(bare_npy name B), ?(bare_npz name B) in E; [| |discriminate].
    - destruct (compress || npz); injection E as <-; eexists; [right|left]; reflexivity.
    - destruct (compress || npz); [injection E as <-; eexists; right; reflexivity|]. destruct (asarray l); [|discriminate]. cbn [bind] in E. injection E as <-. eexists. left. reflexivity. }
  assert (Y : dget String.eqb d' (name' ++ ".npy") = dget String.eqb d (name' ++ ".npy") /\ dget String.eqb d' (name' ++ ".npz") = dget String.eqb d (name' ++ ".npz")).
  { destruct X as (f & [X|X]); subst d'; rewrite !get_put.
    - rewrite (proj2 (String.eqb_neq (name ++ ".npy") (name' ++ ".npy"))) by (intro Q; apply N; exact (suffix_cancel _ _ _ Q)). rewrite (proj2 (String.eqb_neq (name ++ ".npy") (name' ++ ".npz"))) by apply npy_npz. split; reflexivity.
    - rewrite (proj2 (String.eqb_neq (name ++ ".npz") (name' ++ ".npz"))) by (intro Q; apply N; exact (suffix_cancel _ _ _ Q)). rewrite (proj2 (String.eqb_neq (name ++ ".npz") (name' ++ ".npy"))) by (intro Q; symmetry in Q; exact (npy_npz _ _ Q)). split; reflexivity. }
  destruct Y as (Y1 & Y2). unfold load_parsed, load_npy, load_npz. rewrite Y1, Y2. reflexivity.
Qed.

(** Other arguments are refused; objects cannot be read without pickle; and
    nothing is found if nothing was saved. *)
Theorem C159_refused : forall d name npz compress, save d name NotArrays npz compress = Err TypeError /\
  (forall a, dget String.eqb d (name ++ ".npy") = Some (SNpy a) -> is_object a = true -> load false d name = Err ValueError) /\
  (dget String.eqb d (name ++ ".npy") = None -> dget String.eqb d (name ++ ".npz") = None -> forall pickle, load pickle d name = Err FileNotFoundError).
Proof.
  intros d name npz compress. split; [reflexivity|]. split.
  - intros a G O. unfold load_parsed, load_npy. rewrite G, O. reflexivity.
  - intros N M pickle. unfold load_parsed, load_npy, load_npz. rewrite N, M. reflexivity.
Qed.
End C159.

(** Step sizes are read back exactly, and others are not touched. *)
Theorem C159_step : forall d name us, load_step (save_step d name us) name = Ok us /\
  forall name', name' <> name -> load_step (save_step d name us) name' = load_step d name'.
Proof.
  intros d name us. unfold load_step, save_step. split; [rewrite get_put, String.eqb_refl; apply step_main|].
  intros name' N. rewrite get_put. rewrite (proj2 (String.eqb_neq (name ++ ".json") (name' ++ ".json"))); [reflexivity|]. intro E. apply N. symmetry. exact (suffix_cancel _ _ _ E).
Qed.

(** A missing step size is reported, and so is a file with other keys. *)
Theorem C159_step_refused : forall d name, (dget String.eqb d (name ++ ".json") = None -> load_step d name = Err FileNotFoundError) /\
  (forall l k z, dget String.eqb d (name ++ ".json") = Some l -> In (k, z) l -> ~ In k ["days"; "seconds"; "microseconds"] -> load_step d name = Err TypeError).
Proof.
  intros d name. unfold load_step. split; [intros ->; reflexivity|]. intros l k z -> I N. unfold timedelta_of. generalize 0%Z as t. revert I.
  assert (S : forall (f : Z -> string * Z -> result Z) m, fold_left (fun r kv => bind r (fun t => f t kv)) m (Err TypeError) = Err TypeError).
  { intros f m. induction m as [|kv m IH]; [reflexivity|exact IH]. }
  induction l as [|(k', z') l IH]; intros I t; [destruct I|]. cbn [fold_left bind fst snd].
  destruct I as [E|I].
  - injection E as -> ->. destruct (String.eqb_spec k "days") as [->|]; [exfalso; apply N; cbn; auto|]. destruct (String.eqb_spec k "seconds") as [->|]; [exfalso; apply N; cbn; auto|].
    destruct (String.eqb_spec k "microseconds") as [->|]; [exfalso; apply N; cbn; auto|]. exact (S (fun t kv => if String.eqb (fst kv) "days" then _ else if String.eqb (fst kv) "seconds" then _ else if String.eqb (fst kv) "microseconds" then _ else _) l).
  - destruct (String.eqb k' "days"); [exact (IH I _)|]. destruct (String.eqb k' "seconds"); [exact (IH I _)|]. destruct (String.eqb k' "microseconds"); [exact (IH I _)|].
    exact (S (fun t kv => if String.eqb (fst kv) "days" then _ else if String.eqb (fst kv) "seconds" then _ else if String.eqb (fst kv) "microseconds" then _ else _) l).
Qed.

Example C159_example : let as_one := fun l : list nat => match l with [] => Err ValueError | x :: _ => Ok x end in
  let odd := Nat.odd in
  (match save_parsed as_one [] "states" (Arrays [4%nat; 5%nat]) true false with Ok d => (load_parsed odd true d "states", load_parsed odd false d "states", load_parsed odd true d "labels") | Err e => (Err e, Err e, Err e) end) =
    (Ok (LArrays [4; 5]), Err ValueError, Err FileNotFoundError)%nat /\
  bare "states" /\ map snd (save_step [] "tpm" (-90061000001)) = [[("days", -2); ("seconds", 82738); ("microseconds", 999999)]]%Z /\ load_step (save_step [] "tpm" (-90061000001)) "tpm" = Ok (-90061000001)%Z.
Proof.
  split; [reflexivity|]. split; [|split; reflexivity]. intro p. split; intro E; apply (f_equal list_ascii_of_string) in E; rewrite Subgroup_NameProofs.chars_app in E; apply (f_equal (@rev ascii)) in E; rewrite rev_app_distr in E; discriminate.
Qed.

(** ** C160: profiles of the FfE *)

(** Every load returns the profiles of the rows that are reported, in the right
    unit, with their household types if asked; labels once written can only be
    read with pickle. *)
Theorem C160_profiles_partial : forall raw cs c rows kept_rows, raw (c_kind c) = Some rows -> selected (reported (c_kind c)) rows kept_rows ->
  c_labels c = false \/ c_pickle c = true \/ (forall c', In c' cs -> c_kind c' <> c_kind c) ->
  exists p, snd (load_profiles (c_pickle c) raw (c_kind c) (c_labels c) (c_watts c) (ffe_run raw cs)) = Ok (p, if c_labels c then Some (map e_type kept_rows) else None) /\
    profiles_of (c_kind c) (c_watts c) kept_rows p.
Proof.
  intros raw cs c rows kept_rows R S H. rewrite ffe_main. unfold ffe_expected. rewrite R. rewrite (selected_fun _ _ _ _ _ S (rows_selected (c_kind c) rows)).
  assert (X : c_labels c && negb (c_pickle c) && was_loaded (c_kind c) cs = false).
  { destruct H as [H|[H|H]]; [rewrite H; reflexivity|rewrite H, andb_false_r; reflexivity|]. destruct (was_loaded (c_kind c) cs) eqn:W; [|apply andb_false_r]. apply loaded_iff in W as (c' & I & E). exfalso. exact (H c' I E). }
  rewrite X. cbn [andb]. eexists. split; [reflexivity|apply scaled_main].
Qed.

(** Without pickle, labels are refused by every load but the first. *)
Theorem C160_labels_refuted : forall raw cs k watts rows e, raw k = Some rows -> In e rows -> reported k e -> (exists c, In c cs /\ c_kind c = k) ->
  snd (load_profiles false raw k true watts (ffe_run raw cs)) = Err ValueError.
Proof.
  intros raw cs k watts rows e R I P L. pose proof (ffe_main raw cs {| c_pickle := false; c_kind := k; c_labels := true; c_watts := watts |}) as M. cbn [c_pickle c_kind c_labels c_watts] in M. rewrite M.
  unfold ffe_expected. cbn [c_pickle c_kind c_labels c_watts]. rewrite R, (proj2 (loaded_iff k cs) L). cbn [negb andb].
  assert (F : In e (ffe_rows k rows)) by (destruct k; cbn [ffe_rows reported] in *; [apply filter_In; split; [exact I|apply Z.eqb_eq; exact P]|exact I]). destruct (ffe_rows k rows); [destruct F|reflexivity].
Qed.

(** Without the raw file, the loads of that kind fail and write nothing. *)
Theorem C160_missing : forall raw cs c, raw (c_kind c) = None -> load_profiles (c_pickle c) raw (c_kind c) (c_labels c) (c_watts c) (ffe_run raw cs) = (ffe_run raw cs, Err FileNotFoundError).
Proof.
  intros raw cs c R. destruct (ffe_run_holds raw cs (c_kind c)) as (N1 & N2 & H). rewrite R in H. assert (H' : dget String.eqb (ffe_run raw cs) (ffe_file (c_kind c) ++ ".npz") = None) by (destruct (was_loaded (c_kind c) cs); exact (proj1 H)).
  unfold load_profiles, load_parsed, load_npy, load_npz. rewrite N1, H'. cbn [ffe_states bind]. unfold ffe_parse. rewrite R. reflexivity.
Qed.

(** Names of the eleven household types; lists are named element by element. *)
Definition type_names : list string :=
  ["One full-time working person"; "One pensioneer"; "Two full-time working persons"; "Two pensioneers"; "One full-time and one part-time working person";
   "Two full-time working persons, one child"; "One full-time and one part-time working person, one child"; "Two full-time working persons, two children";
   "One full-time and one part-time working person, two children"; " Two full-time working persons, three children"; " One full-time and one part-time working person, three children"].
Theorem C160_names : (forall i s, at_ type_names i s -> load_labels_name (AInt (Z.of_nat i + 1)) = Ok (NName s)) /\
  (forall z, (z < 1 \/ 11 < z)%Z -> load_labels_name (AInt z) = Ok NNone) /\
  (forall l names, Forall2 (fun a n => load_labels_name a = Ok n) l names -> load_labels_name (AList l) = Ok (NList names)).
Proof.
  split; [|split].
  - intros i s H. unfold at_ in H. do 11 (destruct i as [|i]; [cbn in H; injection H as <-; reflexivity|]). destruct i; discriminate.
  - intros z H. cbn [load_labels_name]. f_equal. destruct z as [|p|p]; [reflexivity| |reflexivity].
    destruct H as [H|H]; [lia|]. destruct p as [[[[p|p|]|[p|p|]|]|[[p|p|]|[p|p|]|]|]|[[[p|p|]|[p|p|]|]|[[p|p|]|[p|p|]|]|]|]; try reflexivity; lia.
  - intros l names F. cbn [load_labels_name]. rewrite (each_ok _ _ load_labels_name l names F). reflexivity.
Qed.

(** The labels the loader returns, dictionaries, cannot be named. *)
Theorem C160_dictionaries_refuted : forall n, load_labels_name (AList (repeat (ADict ["hh_type"]) (S n))) = Err RecursionError.
Proof. intro n. reflexivity. Qed.

(** Integers of numpy arrays have no name. *)
Theorem C160_numpy_refuted : forall z, load_labels_name (ANumpy z) = Ok NNone.
Proof. reflexivity. Qed.

Example C160_example : let raw := fun k => match k with
      | Electric => Some [{| e_values := [1; 2]; e_type := 3; e_phase := 0 |}; {| e_values := [5; 6]; e_type := 3; e_phase := 1 |}; {| e_values := [7; 8]; e_type := 4; e_phase := 0 |}]
      | Thermal => None end%Q in
  let first := {| c_pickle := false; c_kind := Electric; c_labels := true; c_watts := true |} in
  snd (load_profiles false raw Electric true false (ffe_run raw [])) = Ok ([[1; 2]; [7; 8]], Some [3; 4]%Z) /\
  snd (load_profiles false raw Electric false true (ffe_run raw [first])) = Ok ([[1 * 1000; 2 * 1000]; [7 * 1000; 8 * 1000]], None)%Q /\
  snd (load_profiles false raw Electric true true (ffe_run raw [first])) = Err ValueError /\
  snd (load_profiles true raw Electric true false (ffe_run raw [first])) = Ok ([[1; 2]; [7; 8]], Some [3; 4]%Z) /\
  snd (load_profiles true raw Thermal true false (ffe_run raw [first])) = Err FileNotFoundError /\
  load_labels_name (AList [AInt 2; ANumpy 2; AList [AInt 12]]) = Ok (NList [NName "One pensioneer"; NNone; NList [NNone]]) /\ load_labels_name (AText "2") = Err RecursionError.
Proof. vm_compute. repeat split. Qed.

(** ** C161: measured profiles of a step size *)

(** If updates succeed and are made with this version and step size, and archives
    keep their files, every load returns the profiles of the archive last
    downloaded, averaged over the whole seconds of the step. *)
Theorem C161_newest_partial : forall (File Data : Type) (averaged : list (string * File) -> Z -> result Data) switched_on version step cs kind,
  updates_here version step cs -> same_files cs ->
  snd (profiles averaged switched_on version step kind (trace_run averaged switched_on cs)) = from_archive averaged switched_on (snd (latest cs)) (Z.quot step 1000000) kind.
Proof. intros File Data averaged switched_on version step cs kind. apply trace_main. Qed.

(** Folders are shared by the steps with the same whole seconds and the same
    version, and only by those. *)
Theorem C161_folders : forall v s v' s', folder v s = folder v' s' <-> v = v' /\ Z.quot s 1000000 = Z.quot s' 1000000.
Proof. intros v s v' s'. split; [apply folder_inj|]. intros (-> & E). unfold folder, whole_seconds. rewrite E. reflexivity. Qed.

(** Parts of seconds are ignored: the profiles are those of another step size. *)
Theorem C161_seconds_refuted : forall (File Data : Type) (averaged : list (string * File) -> Z -> result Data) switched_on version kind d,
  snd (profiles averaged switched_on version 1500000 kind d) = snd (profiles averaged switched_on version 1000000 kind d).
Proof. reflexivity. Qed.

(** An update leaves the profiles of other step sizes as they are. *)
Definition count (a : list (string * nat)) (seconds : Z) : result (nat * Z) := Ok (fold_right plus 0%nat (map snd a), seconds).
Definition all_on (x : nat * Z) : result (nat * Z) := Ok x.
Notation trun := (trace_run count all_on).
Theorem C161_update_refuted : exists cs version step a x, same_files cs /\ (forall v c u s server, In (MakeTrace v c u s server) cs -> exists new, server = Ok new) /\ snd (latest cs) = Some a /\
  snd (profiles count all_on version step "full" (trun cs)) = Ok x /\ count a (Z.quot step 1000000) <> Ok x.
Proof.
  exists [MakeTrace "master" false false 60000000 (Ok [("iron", 1%nat)]); Profile "master" 60000000 "full"; MakeTrace "master" false true 1000000 (Ok [("iron", 2%nat)])], "master", 60000000%Z, [("iron", 2%nat)], (1%nat, 60%Z).
  split; [exists ["iron"]; split; [repeat constructor; intros []|]; intros v c u s new [E|[E|[E|[]]]]; try discriminate; injection E as <- <- <- <- <-; reflexivity|].
  split; [intros v c u s server [E|[E|[E|[]]]]; try discriminate; injection E as <- <- <- <- <-; eexists; reflexivity|].
  split; [reflexivity|]. split; [vm_compute; reflexivity|vm_compute; discriminate].
Qed.

(** Files that are no longer in the archive stay. *)
Theorem C161_removed_refuted : exists cs version step a x, updates_here version step cs /\ snd (latest cs) = Some a /\
  snd (profiles count all_on version step "full" (trun cs)) = Ok x /\ count a (Z.quot step 1000000) <> Ok x.
Proof.
  exists [MakeTrace "master" false false 60000000 (Ok [("iron", 1%nat); ("oven", 5%nat)]); MakeTrace "master" false true 60000000 (Ok [("iron", 2%nat)])], "master", 60000000%Z, [("iron", 2%nat)], (7%nat, 60%Z).
  split; [intros v c s a [E|[E|[]]]; [discriminate|injection E as <- <- <- <-; split; [reflexivity|split; [reflexivity|eexists; reflexivity]]]|].
  split; [reflexivity|]. split; [vm_compute; reflexivity|vm_compute; discriminate].
Qed.

(** After an update that failed, another step size downloads the new archive, and
    the profiles parsed in between stay. *)
Theorem C161_failed_update_refuted : exists cs version step a x, same_files cs /\ (forall v c s server, In (MakeTrace v c true s server) cs -> v = version /\ s = step) /\ snd (latest cs) = Some a /\
  snd (profiles count all_on version step "full" (trun cs)) = Ok x /\ count a (Z.quot step 1000000) <> Ok x.
Proof.
  exists [MakeTrace "master" false false 60000000 (Ok [("iron", 1%nat)]); MakeTrace "master" false true 60000000 (Err ValueError); Profile "master" 60000000 "full"; MakeTrace "master" false false 1000000 (Ok [("iron", 2%nat)])],
    "master", 60000000%Z, [("iron", 2%nat)], (1%nat, 60%Z).
  split; [exists ["iron"]; split; [repeat constructor; intros []|]; intros v c u s new [E|[E|[E|[E|[]]]]]; try discriminate; injection E as <- <- <- <- <-; reflexivity|].
  split; [intros v c s server [E|[E|[E|[E|[]]]]]; try discriminate; injection E as <- <- <- <-; split; reflexivity|].
  split; [reflexivity|]. split; [vm_compute; reflexivity|vm_compute; discriminate].
Qed.

(** An update before the first download is refused, though the parsed profiles of
    the folder are gone. *)
Theorem C161_update_first_refuted : forall (File Data : Type) server version clear step (d : trace_disk File Data), t_zip d = false ->
  let (d', r) := make_trace server version clear true step d in r = Err FileNotFoundError /\ t_dir d' = t_dir d /\ dget String.eqb (t_parsed d') (folder version step) = Some [].
Proof.
  intros File Data server version clear step d Z. unfold make_trace. rewrite Z. cbn [andb negb]. split; [reflexivity|]. split; [reflexivity|]. cbn [t_parsed]. rewrite get_put, String.eqb_refl, orb_true_r.
  destruct (dget String.eqb (t_parsed d) (folder version step)); reflexivity.
Qed.

Example C161_example : let calls := [MakeTrace "master" false false 60000000 (Ok [("iron", 1%nat)]); Profile "master" 60000000 "switchedON"; MakeTrace "master" false false 1000000 (Err ValueError); Profile "master" 1000000 "full";
      MakeTrace "master" false true 60900000 (Ok [("iron", 4%nat)])] in
  updates_here "master" 60000000 calls /\ same_files calls /\ folder "master" 60900000 = "master_step_size_60_seconds" /\
  snd (profiles count all_on "master" 60000000 "switchedON" (trun calls)) = Ok (4%nat, 60%Z) /\ snd (profiles count all_on "master" 60000000 "switchedOFF" (trun calls)) = Err NotImplementedError /\
  snd (profiles count all_on "master" 1000000 "full" (trun calls)) = Ok (1%nat, 1%Z) /\ snd (profiles count all_on "master" 1000000 "full" (trun [])) = Err FileNotFoundError.
Proof.
  split; [intros v c s a [E|[E|[E|[E|[E|[]]]]]]; try discriminate; injection E as <- <- <- <-; split; [reflexivity|split; [reflexivity|eexists; reflexivity]]|].
  split; [exists ["iron"]; split; [repeat constructor; intros []|]; intros v c u s new [E|[E|[E|[E|[E|[]]]]]]; try discriminate; injection E as <- <- <- <- <-; reflexivity|].
  vm_compute. repeat split.
Qed.

(** ** C163: remaining caches *)

(** Any sequence of loads on an empty folder: every load returns its data. *)
Theorem C163_any_order_partial : forall ft parse answers ks,
  (forall k, In k ks -> plain_kept k /\ parse k = Ok (answers k) /\ cacheable k (answers k)) ->
  (forall k k', In k ks -> In k' ks -> same_kept k k' -> answers k = answers k') ->
  exists d' outs, fetch_all ft parse ks [] = (d', outs) /\ Forall2 (fun k out => exists x, out = Ok x /\ gives k (answers k) x) ks outs.
Proof.
  intros ft parse answers ks H S. destruct (cache_sequence ft parse answers ks H S ks [] (incl_refl ks)) as (d' & E); [intros k _; left; intros p _; reflexivity|].
  exists d'. eexists. split; [exact E|]. clear - ft H. induction ks as [|k ks IH]; [constructor|]. cbn [map]. constructor; [|apply IH; intros k' I; apply H; right; exact I].
  destruct (H k (or_introl eq_refl)) as (_ & _ & C). exact (value_gives ft k (answers k) C).
Qed.

(** Read back: whatever the parser would say later, and without another change. *)
Theorem C163_frozen : forall ft parse k d a d1 out, absent k d -> parse k = Ok a -> cacheable k a -> fetch ft parse k d = (d1, out) ->
  (forall p, ~ In p (paths k) -> dget String.eqb d1 p = dget String.eqb d p) /\ forall parse', fetch ft parse' k d1 = (d1, out).
Proof.
  intros ft parse k d a d1 out N P C E. destruct (fetch_first ft parse k d a N P C) as (d' & E' & S & F). rewrite E in E'. injection E' as -> ->. split; [exact F|]. intro parse'. exact (stored_fetch ft k a d' S parse').
Qed.

(** Names: equal exactly for the same data. *)
Theorem C163_names : forall k k', plain_kept k -> plain_kept k' -> (kept_path k = kept_path k' <-> same_kept k k').
Proof.
  intros k k' P P'. assert (I : forall k, In (kept_path k) (paths k)) by (intros []; left; reflexivity). split.
  - intro E. apply (paths_main k k' (kept_path k) P P' (I k)). rewrite E. exact (I k').
  - intro S. pose proof (same_paths k k' P P' S) as E. destruct k, k'; try contradiction; cbn [paths] in E; congruence.
Qed.

(** Populations with arrays or numpy numbers: the first load returns them, the
    later ones the same values as lists and numbers. *)
Theorem C163_population : forall ft parse kind d o, dget String.eqb d (kept_path (Population kind)) = None -> parse (Population kind) = Ok (AObj o) -> convertible o ->
  exists d' j, fetch ft parse (Population kind) d = (d', Ok (AObj o)) /\ lists_for o j /\ forall parse', fetch ft parse' (Population kind) d' = (d', Ok (AObj j)).
Proof.
  intros ft parse kind d o N P C. destruct (convertible_main ft o C) as (j & (m & M & J) & L). exists (dset String.eqb d (kept_path (Population kind)) (FJson j)), j. cbn [fetch]. unfold fetch_json at 1. rewrite N, P. cbn [converts]. rewrite M. cbn [bind]. rewrite J.
  split; [reflexivity|]. split; [exact L|]. intro parse'. unfold fetch_json. rewrite get_put, String.eqb_refl. reflexivity.
Qed.
Theorem C163_population_refuted : exists ft parse k d1 out out', fetch ft parse k [] = (d1, Ok out) /\ fetch ft parse k d1 = (d1, Ok out') /\ out <> out'.
Proof.
  exists (fun _ => ""), (fun _ => Ok (AObj (ODict [(OPy (SStr "subgroups_probs"), OArr [OPy (SFloat 1)])]))), (Population "resident_number"). eexists. eexists. eexists.
  split; [vm_compute; reflexivity|]. split; [vm_compute; reflexivity|discriminate].
Qed.

(** Statistics of bulbs, temperatures and fisher parameters with a numpy integer:
    the first load fails, and all later ones. *)
Theorem C163_numpy_refuted : forall ft parse k d key z, (k = Arma \/ k = Geographic \/ k = Fisher \/ exists sg, k = BulbStats sg) -> absent k d ->
  parse k = Ok (AObj (ODict [(OPy (SStr key), ONp (SInt z))])) ->
  exists d', fetch ft parse k d = (d', Err TypeError) /\ forall parse', fetch ft parse' k d' = (d', Err ValueError).
Proof.
  intros ft parse k d key z K N P.
  assert (F : forall pr dd, fetch ft pr k dd = fetch_json ft pr k dd) by (intros; destruct K as [->|[->|[->|(sg & ->)]]]; reflexivity).
  assert (N' : dget String.eqb d (kept_path k) = None) by (apply N; destruct K as [->|[->|[->|(sg & ->)]]]; left; reflexivity).
  assert (V : converts k = false) by (destruct K as [->|[->|[->|(sg & ->)]]]; reflexivity).
  exists (dset String.eqb d (kept_path k) FBroken). split.
  - rewrite F. unfold fetch_json. rewrite N', P, V. reflexivity.
  - intro parse'. rewrite F. unfold fetch_json. rewrite get_put, String.eqb_refl. reflexivity.
Qed.

(** Ownership is kept without the time attributes it was parsed for. *)
Theorem C163_ownership_refuted : exists ft parse sg sg' items items' d', plain sg /\ plain sg' /\ ~ same_numbers sg sg' /\
  parse (Ownership sg) = Ok (ADictionary items) /\ parse (Ownership sg') = Ok (ADictionary items') /\ items <> items' /\
  fetch_all ft parse [Ownership sg; Ownership sg'] [] = (d', [Ok (ADictionary items); Ok (ADictionary items)]).
Proof.
  set (o := fun z => [("OVEN", OPy (SInt z))]).
  exists (fun _ => ""), (fun k => match k with Ownership [(_, VInt z)] => Ok (ADictionary (o z)) | _ => Err KeyError end), [("weekday", VInt 6)], [("weekday", VInt 7)], (o 6%Z), (o 7%Z). eexists.
  assert (K : forall z, plain [("weekday", VInt z)]).
  { intro z. split; [repeat constructor; intros []|]. intros k v [E|[]]. injection E as <- <-. split; [|discriminate]. exists ["weekday"]. split; [discriminate|]. split; [|reflexivity]. intros w [<-|[]]. split; [discriminate|]. cbn. intuition discriminate. }
  split; [apply K|]. split; [apply K|]. split.
  { intro S. destruct (proj1 (S "weekday" [6%Z])) as (v & Hv & Nv); [exists (VInt 6); split; [left; reflexivity|reflexivity]|]. destruct Hv as [E|[]]. injection E as <-. discriminate. }
  split; [reflexivity|]. split; [reflexivity|]. split; [discriminate|]. vm_compute. reflexivity.
Qed.

(** If a clearness file is missing, the three are parsed and written again, and
    read back later. *)
Theorem C163_incomplete : forall ft parse d t l s, parse Clearness = Ok (AClear t l s) ->
  (forall f, dget String.eqb d "climate/clearness_tpms.npy" = Some f -> exists o, f = FNpy o) -> (forall f, dget String.eqb d "climate/clearness_labels.npy" = Some f -> exists o, f = FNpy o) ->
  (exists p, In p ["climate/clearness_tpms.npy"; "climate/clearness_labels.npy"; "climate/clearness_step_size.json"] /\ dget String.eqb d p = None) ->
  exists d', fetch ft parse Clearness d = (d', Ok (AClear t l s)) /\ forall parse', fetch ft parse' Clearness d' = (d', Ok (AClear t l s)).
Proof.
  intros ft parse d t l s P T L (p & I & N). unfold fetch, fetch_clearness.
  assert (E : bind (npy d (kept_path Clearness)) (fun t0 => bind (npy d clearness_labels_path) (fun l0 => bind (json_step d clearness_step_path) (fun s0 => Ok (AClear t0 l0 s0)))) = Err FileNotFoundError).
  { unfold npy, kept_path, clearness_labels_path, clearness_step_path in *. destruct (dget String.eqb d "climate/clearness_tpms.npy") as [f|] eqn:A; [|reflexivity]. destruct (T f eq_refl) as (o & ->). cbn [bind].
    destruct (dget String.eqb d "climate/clearness_labels.npy") as [g|] eqn:B; [|reflexivity]. destruct (L g eq_refl) as (o' & ->). cbn [bind].
    destruct I as [<-|[<-|[<-|[]]]]; [congruence|congruence|]. unfold json_step. rewrite N. reflexivity. }
  rewrite E, P. eexists. split; [reflexivity|]. intro parse'. unfold npy, json_step. rewrite !get_put. rewrite !String.eqb_refl.
  cbn [kept_path clearness_labels_path clearness_step_path String.eqb Ascii.eqb Bool.eqb bind step_json]. rewrite step_main. reflexivity.
Qed.

Example C163_example : let ft := fun _ : Q => "1.0" in
  let parse := fun k => match k with
    | Arma => Ok (AObj (ODict [(OPy (SStr "phi"), OPy (SFloat 1))]))
    | Bulbs => Ok (AObj (ODict [(OPy (SStr "consumption"), OArr [OPy (SInt 60); OPy (SInt 8)])]))
    | Clearness => Ok (AClear (OArr []) (OArr [OPy (SFloat 0)]) 60000000)
    | Ownership _ => Ok (ADictionary [("OVEN", OArr [OPy (SFloat 1)])])
    | _ => Err NotImplementedError end in
  let ks := [Arma; Bulbs; Clearness; Ownership [("n_residents", VInt 2)]; Clearness; Bulbs; Arma; Fisher] in
  match fetch_all ft parse ks [] with (d, outs) => map fst d = ["temperatures_arma.json"; "bulbs.json"; "climate/clearness_tpms.npy"; "climate/clearness_labels.npy"; "climate/clearness_step_size.json"; "appliance_ownership/ownership__n_residents_2.npz"] /\
    nth 0 outs (Err KeyError) = nth 6 outs (Err KeyError) /\ nth 1 outs (Err KeyError) = Ok (AObj (ODict [(OPy (SStr "consumption"), OArr [OPy (SInt 60); OPy (SInt 8)])])) /\ nth 4 outs (Err KeyError) = Ok (AClear (OArr []) (OArr [OPy (SFloat 0)]) 60000000) /\
    nth 7 outs (Err KeyError) = Err NotImplementedError end.
Proof. vm_compute. repeat split. Qed.

Print Assumptions C158_newest_partial.
Print Assumptions C158_raw.
Print Assumptions C158_refused.
Print Assumptions C158_weighting_refuted.
Print Assumptions C158_spelling_refuted.
Print Assumptions C158_columns.
Print Assumptions C159_array.
Print Assumptions C159_one_array.
Print Assumptions C159_archive_partial.
Print Assumptions C159_hidden_refuted.
Print Assumptions C159_suffix_refuted.
Print Assumptions C159_frame.
Print Assumptions C159_refused.
Print Assumptions C159_step.
Print Assumptions C160_profiles_partial.
Print Assumptions C160_labels_refuted.
Print Assumptions C160_missing.
Print Assumptions C160_names.
Print Assumptions C160_dictionaries_refuted.
Print Assumptions C161_newest_partial.
Print Assumptions C161_folders.
Print Assumptions C161_seconds_refuted.
Print Assumptions C161_update_refuted.
Print Assumptions C161_removed_refuted.
Print Assumptions C161_failed_update_refuted.
Print Assumptions C161_update_first_refuted.
Print Assumptions C163_any_order_partial.
Print Assumptions C163_frozen.
Print Assumptions C163_names.
Print Assumptions C163_population.
Print Assumptions C163_population_refuted.
Print Assumptions C163_numpy_refuted.
Print Assumptions C163_ownership_refuted.
Print Assumptions C163_incomplete.
Print Assumptions C159_step_refused.
Print Assumptions C160_numpy_refuted.
