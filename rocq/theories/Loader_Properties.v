(** * Properties of the dataset loaders (C57, C91, C92, C93, C94). *)

From Coq Require Import String Ascii List ZArith QArith Bool Arith Lia.
From Verif Require Import Prelude SpecBase Subgroup_Model Subgroup_Spec Subgroup_Properties Loader_Model Loader_Spec Loader_Proofs Loader_FileProofs.
Import ListNotations.
Local Open Scope nat_scope.
Local Open Scope string_scope.

(** ** C57: dictionaries in files *)

(** The first load returns what was parsed, parses once and touches one file. *)
Theorem C57_first : forall ft parse r d o, dget String.eqb (files d) (path r) = None -> parse r = Ok o -> fits r o ->
  exists d' out, load ft parse r d = (d', Ok out) /\ returned r o out /\ parses d' = S (parses d) /\
    (exists f, dget String.eqb (files d') (path r) = Some f) /\ forall p, p <> path r -> dget String.eqb (files d') p = dget String.eqb (files d) p.
Proof.
  intros ft parse r d o N P F. destruct (load_first ft parse r d o N P F) as (j & out & E & _ & _ & R). pose proof (load_other ft parse r d) as O. rewrite E in O.
  eexists; exists out. split; [exact E|]. split; [exact R|]. split; [reflexivity|]. split; [|exact O]. exists (Written j). cbn [files]. apply PreludeFacts.dget_dset_same. apply String.eqb_eq.
Qed.

(** Later loads return the same value, whatever the parser would say by then and
    whatever was loaded in between; nothing is parsed or written. *)
Theorem C57_frozen : forall ft parse r d o d1 out, dget String.eqb (files d) (path r) = None -> parse r = Ok o -> fits r o -> load ft parse r d = (d1, Ok out) ->
  forall rs parse', load ft parse' r (fst (load_all ft rs d1)) = (fst (load_all ft rs d1), Ok out).
Proof. exact load_frozen. Qed.

(** Two loads use one file exactly if they ask for the same data. *)
Theorem C57_names : forall r r', plain_request r -> plain_request r' -> (path r = path r' <-> same_request r r').
Proof. intros r r' P P'. split; [apply path_main; assumption|apply same_path; assumption]. Qed.

(** Any sequence of loads from an empty folder: every load returns its data, and
    each file is parsed once. *)
Theorem C57_any_order : forall ft parse answers rs,
  (forall r, In r rs -> plain_request r /\ parse r = Ok (answers r) /\ fits r (answers r)) ->
  (forall r r', In r rs -> In r' rs -> same_request r r' -> answers r = answers r') ->
  exists d' outs, load_all ft (map (fun r => (r, parse)) rs) empty_disk = (d', outs) /\ Forall2 (fun r out => exists x, out = Ok x /\ returned r (answers r) x) rs outs /\
    parses d' = length (nodup string_dec (map path rs)).
Proof.
  intros ft parse answers rs F S. destruct (sequence_main ft parse answers rs [] empty_disk) as (d' & L & P).
  - intros r I. rewrite app_nil_r in I. destruct (F r I) as (_ & A & B). split; assumption.
  - intros r r' I I' E. rewrite app_nil_r in I, I'. destruct (F r I) as (Pr & _). destruct (F r' I') as (Pr' & _). pose proof (path_main r r' Pr Pr' E) as Sr. split; [apply S; assumption|apply same_target; exact Sr].
  - split; [intros p _ []|]. intros p f E. discriminate.
  - exists d'. eexists. split; [exact L|]. split.
    + clear - F. induction rs as [|r rs IH]; [constructor|]. cbn [map]. constructor; [|apply IH; intros; apply F; right; assumption]. destruct (F r (or_introl eq_refl)) as (_ & _ & B). exact (fits_returned r _ B).
    + rewrite P. cbn [parses empty_disk map]. f_equal. clear. induction (nodup string_dec (map path rs)) as [|x l IH]; [reflexivity|]. cbn [filter]. cbn. f_equal. exact IH.
Qed.

(** The parser is asked for a subgroup with time attributes but the file is named
    without them: the second load returns the targets of the first day. *)
Theorem C57_time_attributes_refuted : exists ft parse sg sg' o o' d', plain sg /\ plain sg' /\ ~ same_numbers sg sg' /\
  parse (Switchons sg) = Ok o /\ parse (Switchons sg') = Ok o' /\ o <> o' /\ fits (Switchons sg) o /\ fits (Switchons sg') o' /\
  load_all ft [(Switchons sg, parse); (Switchons sg', parse)] empty_disk = (d', [Ok o; Ok o]).
Proof.
  set (o := fun z => ODict [(OPy (SStr "OVEN"), OPy (SInt z))]).
  exists (fun _ => ""), (fun r => match r with Switchons [(_, VInt z)] => Ok (o z) | _ => Err KeyError end), [("weekday", VInt 6)], [("weekday", VInt 7)], (o 6%Z), (o 7%Z).
  exists (mkDisk [("appliance_targets/switchons__", Written (o 6%Z))] 1).
  assert (K : forall z, plain [("weekday", VInt z)]).
  { intro z. split; [repeat constructor; intros []|]. intros k v [E|[]]. injection E as <- <-. split; [|discriminate]. exists ["weekday"]. split; [discriminate|]. split; [|reflexivity]. intros w [<-|[]]. split; [discriminate|]. cbn. intuition discriminate. }
  assert (F : forall sg z, fits (Switchons sg) (o z)).
  { intros sg z. split; [eexists; split; [reflexivity|discriminate]|]. cbn. split; [|tauto]. exists ["OVEN"]. split; [reflexivity|]. repeat constructor. intros []. }
  split; [apply K|]. split; [apply K|]. split.
  { intro S. destruct (proj1 (S "weekday" [6%Z])) as (v & Hv & Nv); [exists (VInt 6); split; [left; reflexivity|reflexivity]|]. destruct Hv as [E|[]]. injection E as <-. discriminate. }
  split; [reflexivity|]. split; [reflexivity|]. split; [discriminate|]. split; [apply F|]. split; [apply F|]. vm_compute. reflexivity.
Qed.

(** A failing conversion leaves an empty file behind: the loader is broken from
    then on, even if parsing works. *)
Theorem C57_abandoned_refuted : forall ft r parse d, dget String.eqb (files d) (path r) = None -> target r = false -> r <> Appliances -> parse r = Ok (ODict [(OPy (SStr "range"), OOther)]) ->
  exists d', load ft parse r d = (d', Err NotImplementedError) /\ forall parse' rs, snd (load ft parse' r (fst (load_all ft rs d'))) = Err ValueError.
Proof.
  intros ft r parse d N T A P. eexists. split.
  - unfold load. rewrite N, P. cbn [bind]. destruct r; try discriminate; try congruence; reflexivity.
  - intros parse' rs. unfold load at 1. rewrite (load_all_keeps ft rs _ (path r) Abandoned); [reflexivity|]. cbn [files put_file]. apply PreludeFacts.dget_dset_same. apply String.eqb_eq.
Qed.

(** Data that cannot be parsed, and appliances without types, are reported and
    leave all files as they were: the next load parses again. *)
Theorem C57_refused : forall ft parse r d, dget String.eqb (files d) (path r) = None ->
  (forall e, parse r = Err e -> exists d', load ft parse r d = (d', Err e) /\ files d' = files d) /\
  (forall items, r = Appliances -> parse r = Ok (ODict items) -> ~ In (OPy (SStr "type")) (map fst items) ->
     exists d', load ft parse r d = (d', Err ValueError) /\ files d' = files d).
Proof.
  intros ft parse r d N. split.
  - intros e P. unfold load. rewrite N, P. cbn [bind]. eexists. split; reflexivity.
  - intros items -> P T. unfold load. rewrite N, P. cbn [bind check].
    assert (X : existsb (fun kv : obj * obj => match fst kv with OPy (SStr s) => String.eqb s "type" | _ => false end) items = false).
    { destruct (existsb _ items) eqn:E; [|reflexivity]. exfalso. apply existsb_exists in E. destruct E as ([k v] & I & E). cbn [fst] in E.
      destruct k as [|[]| | | | |]; try discriminate. apply String.eqb_eq in E. subst. apply T. apply in_map_iff. exists (OPy (SStr "type"), v). split; [reflexivity|exact I]. }
    rewrite X. cbn [bind]. eexists. split; reflexivity.
Qed.

(** A numpy integer in the parsed dictionary: the first load fails, the next one
    succeeds. *)
Theorem C57_numpy_number_refuted : exists ft parse r d1 d2 out, load ft parse r empty_disk = (d1, Err NotImplementedError) /\ load ft parse r d1 = (d2, Ok out).
Proof.
  exists (fun _ => ""), (fun _ => Ok (ODict [(OPy (SStr "number"), ONp (SInt 4))])), (Buildings []).
  exists (mkDisk [("heating/_buildings_dict.json", Written (ODict [(OPy (SStr "number"), OPy (SInt 4))]))] 1), (mkDisk [("heating/_buildings_dict.json", Written (ODict [(OPy (SStr "number"), OPy (SInt 4))]))] 1), (ODict [(OPy (SStr "number"), OPy (SInt 4))]).
  split; vm_compute; reflexivity.
Qed.

(** Numbers as keys come back as texts. *)
Theorem C57_number_keys_refuted : exists ft parse r d1 out out', load ft parse r empty_disk = (d1, Ok out) /\ load ft parse r d1 = (d1, Ok out') /\ out <> out'.
Proof.
  exists (fun _ => ""), (fun _ => Ok (ODict [(OPy (SInt 2), OPy (SFloat 1))])), (Thermostat []).
  exists (mkDisk [("heating/_thermostat_dict.json", Written (ODict [(OPy (SStr "2"), OPy (SFloat 1))]))] 1), (ODict [(OPy (SInt 2), OPy (SFloat 1))]), (ODict [(OPy (SStr "2"), OPy (SFloat 1))]).
  split; [vm_compute; reflexivity|]. split; [vm_compute; reflexivity|discriminate].
Qed.

(** A list and an array of a heating system, loaded twice with another load in
    between. *)
Example C57_example :
  let o := ODict [(OPy (SStr "names"), OList [OPy (SStr "boiler"); OPy (SStr "pump")]); (OPy (SStr "power"), OArr [ONp (SInt 12); ONp (SInt 7)])] in
  let parse := fun r => match r with HeatingSystem _ => Ok o | _ => Err NotImplementedError end in
  let out := ODict [(OPy (SStr "names"), OArr [OPy (SStr "boiler"); OPy (SStr "pump")]); (OPy (SStr "power"), OArr [ONp (SInt 12); ONp (SInt 7)])] in
  fits (HeatingSystem family) o /\
  load_all (fun _ => "") [(HeatingSystem family, parse); (Buildings family, parse); (HeatingSystem family, fun _ => Err ValueError)] empty_disk =
    (mkDisk [("heating/hh_mean_age_31__household_type_4__n_residents_4__quarter_2_heating_system_dict.json",
       Written (ODict [(OPy (SStr "names"), OList [OPy (SStr "boiler"); OPy (SStr "pump")]); (OPy (SStr "power"), OList [OPy (SInt 12); OPy (SInt 7)])]))] 2,
     [Ok out; Err NotImplementedError; Ok out]).
Proof.
  split; [|vm_compute; reflexivity]. split; [eexists; split; [reflexivity|discriminate]|]. cbn. split; [|tauto]. exists ["names"; "power"]. split; [reflexivity|].
  repeat constructor; cbn; intuition discriminate.
Qed.

(** ** C91: objects in JSON files *)

(** Conversion fails exactly on objects of unknown classes. *)
Theorem C91_accepts : forall o, known o <-> exists j, make_jsonable o = Ok j.
Proof. exact make_known. Qed.

(** Plain data are kept by the conversion and by the file. *)
Theorem C91_plain : forall ft o, plain_json o -> make_jsonable o = Ok o /\ json_trip ft o = Ok o.
Proof. intros ft o H. split; [apply make_plain; exact H|apply trip_plain; exact H]. Qed.

(** Arrays come back as arrays with the same cells after the second conversion. *)
Theorem C91_arrays : forall ft o, storable o -> exists m j out, make_jsonable o = Ok m /\ json_trip ft m = Ok j /\ lists_to_numpy_array j = Ok out /\ lists_to_numpy_array o = Ok out /\ arrays_of o out.
Proof.
  intros ft o H. destruct (storable_trip ft o H) as (j & (m & M & J) & E & _). destruct (storable_arrays o H) as (out & O & R). exists m, j, out. rewrite E. repeat split; assumption.
Qed.

(** Keys that are not texts come back as texts; what is no scalar cannot be a key. *)
Theorem C91_keys : forall ft v, plain_json v ->
  (forall b, json_trip ft (ODict [(OPy (SBool b), v)]) = Ok (ODict [(OPy (SStr (if b then "true" else "false")), v)])) /\
  json_trip ft (ODict [(ONone, v)]) = Ok (ODict [(OPy (SStr "null"), v)]) /\
  (forall l, json_trip ft (ODict [(OList l, v)]) = Err TypeError /\ json_trip ft (ODict [(OArr l, v)]) = Err TypeError) /\
  (forall l, json_trip ft (ODict [(ODict l, v)]) = Err TypeError) /\ (forall x, json_trip ft (ODict [(ONp x, v)]) = Err TypeError).
Proof.
  intros ft v H. assert (T : json_trip ft v = Ok v) by (apply trip_plain; exact H).
  cbn [json_trip each key_text]. rewrite T. repeat split.
Qed.

(** A single precision array comes back in double precision. *)
Theorem C91_precision_refuted : exists ft o m j out out', make_jsonable o = Ok m /\ json_trip ft m = Ok j /\ lists_to_numpy_array o = Ok out /\ lists_to_numpy_array j = Ok out' /\ out <> out'.
Proof.
  exists (fun _ => ""), (OArr [ONp (SFloat 1)]), (OList [OPy (SFloat 1)]), (OList [OPy (SFloat 1)]), (OArr [ONp (SFloat 1)]), (OArr [OPy (SFloat 1)]).
  do 4 (split; [reflexivity|]). discriminate.
Qed.

(** None can be stored but not be converted to arrays. *)
Example C91_example : make_jsonable (ODict [(OPy (SStr "a"), OArr [OArr [ONp (SBool true)]]); (ONp (SInt 1), ONone)]) = Ok (ODict [(OPy (SStr "a"), OList [OList [OPy (SBool true)]]); (OPy (SInt 1), ONone)]) /\
  json_trip (fun _ => "") (ODict [(OPy (SInt 1), ONone); (OPy (SStr "b"), OPy (SInt 5)); (OPy (SStr "1"), OPy (SInt 3))]) = Ok (ODict [(OPy (SStr "1"), OPy (SInt 3)); (OPy (SStr "b"), OPy (SInt 5))]) /\
  json_trip (fun _ => "") (OList [ONp (SInt 1)]) = Err TypeError /\ lists_to_numpy_array (ODict [(OPy (SStr "a"), ONone)]) = Err NotImplementedError /\ make_jsonable (OList [OOther]) = Err NotImplementedError.
Proof. repeat split; vm_compute; reflexivity. Qed.

(** ** C92: array files *)

(** A load that succeeded returned the parsed arrays or left the files alone, and
    from then on returns the same arrays, unless sparse matrices are loaded under
    the same name. *)
Theorem C92_tpm_partial : forall A p parse d d1 x, load_tpm A p parse d = (d1, Ok x) ->
  (d1 = d \/ parse = Ok x) /\ forall cs parse', (forall s, ~ In (CallSparse p s) cs) -> load_tpm A p parse' (after_calls d1 cs) = (after_calls d1 cs, Ok x).
Proof. exact tpm_main. Qed.

Theorem C92_duration : forall A p parse d d1 x, load_tpm_with_duration A p parse d = (d1, Ok x) ->
  (d1 = d \/ parse = Ok x) /\ forall cs parse', (forall s, ~ In (CallSparse (p ++ "_with_duration") s) cs) -> load_tpm_with_duration A p parse' (after_calls d1 cs) = (after_calls d1 cs, Ok x).
Proof. exact duration_main. Qed.

Theorem C92_dict : forall A p parse d d1 x, load_npz_dict A p parse d = (d1, Ok x) ->
  (d1 = d \/ parse = Ok x) /\ forall cs parse', (forall s, ~ In (CallSparse p s) cs) -> load_npz_dict A p parse' (after_calls d1 cs) = (after_calls d1 cs, Ok x).
Proof. exact dict_main. Qed.

Theorem C92_sparse : forall A p parse d d1 x, dget String.eqb d (p ++ ".npy") = None -> load_sparse_tpm A p parse d = (d1, Ok x) ->
  (d1 = d \/ parse = Ok x) /\ forall cs parse', (forall q s, In (CallSparse q s) cs -> ~ In p [q ++ "_tpm_times"; q ++ "_tpm_inds_from"; q ++ "_tpm_inds_to"; q ++ "_tpm_values"]) ->
  load_sparse_tpm A p parse' (after_calls d1 cs) = (after_calls d1 cs, Ok x).
Proof. exact sparse_main. Qed.

(** Both kinds of matrices use one npz file: after a sparse load of a name, the
    dense load of this name fails, whatever was loaded before. *)
Theorem C92_shared_file_refuted : forall A p s (x : A * A * A) d, dget String.eqb d (p ++ "_tpm_times.npy") = None ->
  snd (load_sparse_tpm A p (Ok s) d) = Ok s /\ snd (load_tpm A p (Ok x) (after_call d (CallSparse p (Ok s)))) = Err KeyError.
Proof.
  intros A p s x d N. assert (E : bind (read_sparse A d p) (fun q => bind (read_three A d p) (fun r => Ok (q, r))) = Err FileNotFoundError).
  { assert (P : (p ++ "_tpm_times") ++ ".npy" = p ++ "_tpm_times.npy") by (clear; induction p as [|c p IH]; [reflexivity|]; cbn; f_equal; exact IH).
    unfold read_sparse, read_npy at 1. rewrite P, N. reflexivity. }
  cbn [after_call]. unfold load_sparse_tpm. rewrite E. cbn [snd fst]. split; [reflexivity|]. unfold load_tpm, read_npz. rewrite save_npz_get, String.eqb_refl. reflexivity.
Qed.

Example C92_example :
  let d := fst (load_tpm nat "a" (Ok (1, 2, 3)) []) in let d2 := fst (load_sparse_tpm nat "a" (Ok (mkParts nat 4 5 6 7 8 9 10)) d) in
  snd (load_tpm nat "a" (Err ValueError) d) = Ok (1, 2, 3) /\ snd (load_tpm nat "b" (Err ValueError) d) = Err ValueError /\
  snd (load_sparse_tpm nat "a" (Err ValueError) d2) = Ok (mkParts nat 4 5 6 7 8 9 10) /\ snd (load_tpm nat "a" (Ok (1, 2, 3)) d2) = Err KeyError /\ length d2 = 5.
Proof. repeat split; vm_compute; reflexivity. Qed.

(** ** C93: historical climate *)

(** The data start with the last point that is not after the requested start. *)
Theorem C93_slice_partial : forall (A : Type) (rows : list (Z * A)) first step start lt la, (0 < step)%Z -> regular rows first step -> nth_error rows (length rows - 1) = Some (lt, la) -> (first <= start)%Z ->
  (start > lt -> historical_slice rows start step = Err ValueError)%Z /\
  (start <= lt -> exists k t a, historical_slice rows start step = Ok (skipn k rows) /\ nth_error rows k = Some (t, a) /\ t <= start < t + step)%Z.
Proof.
  intros A rows first step start lt la Hs R L F. destruct (slice_main A rows first step start lt la Hs R L) as (H1 & H2). split; [exact H1|]. intro H. destruct (H2 H) as (k & t & a & E & N & B & _). exists k, t, a. auto.
Qed.

(** A start before the data is not refused: the data returned begin later. *)
Theorem C93_early_refuted : forall (A : Type) (rows : list (Z * A)) first step start lt la, (0 < step)%Z -> regular rows first step -> nth_error rows (length rows - 1) = Some (lt, la) -> (start < first)%Z ->
  historical_slice rows start step = Ok rows.
Proof.
  intros A rows first step start lt la Hs R L F. destruct (slice_main A rows first step start lt la Hs R L) as (_ & H2).
  assert (B : (first <= lt)%Z) by (rewrite (R _ _ _ L); nia). destruct H2 as (k & t & a & E & _ & _ & K); [lia|]. rewrite E, (K F). reflexivity.
Qed.

(** A start within the last step is refused although the last point covers it. *)
Example C93_example : let rows := [(10, 1); (20, 2); (30, 3)]%Z in regular rows 10 10 /\
  historical_slice rows 20 10 = Ok [(20, 2); (30, 3)]%Z /\ historical_slice rows 29 10 = Ok [(20, 2); (30, 3)]%Z /\ historical_slice rows 31 10 = Err ValueError /\ historical_slice rows (-5) 10 = Ok rows.
Proof.
  split; [|repeat split; vm_compute; reflexivity]. intros [|[|[|i]]] t a E; cbn in E; try (injection E as <- <-; reflexivity). destruct i; discriminate.
Qed.

(** ** C94: real profiles *)

(** What was parsed is what later loads return. *)
Theorem C94_profiles_partial : forall (A : Type) (d : profiles_dict A), clean_profiles d -> rebuild (flatten d) [] = Ok d.
Proof. exact profiles_main. Qed.

(** A name with the separator breaks the saved file; a type without profiles
    disappears. *)
Theorem C94_separator_refuted : exists d : profiles_dict nat, rebuild (flatten d) [] = Err ValueError.
Proof. exists [("Fridge", [("Miele&Co", 4)])]. vm_compute. reflexivity. Qed.

Theorem C94_empty_refuted : exists d d' : profiles_dict nat, NoDup (map fst d) /\ (forall t ps n a, In (t, ps) d -> In (n, a) ps -> clean_name t /\ clean_name n) /\ rebuild (flatten d) [] = Ok d' /\ d' <> d.
Proof.
  exists [("Fridge", []); ("Oven", [("x", 3)])], [("Oven", [("x", 3)])]. split; [repeat constructor; cbn; intuition discriminate|]. split; [|split; [vm_compute; reflexivity|discriminate]].
  intros t ps n a [E|[E|[]]] I; injection E as <- <-; [destruct I|]. destruct I as [E|[]]. injection E as <- <-. split; unfold clean_name; cbn; intuition discriminate.
Qed.

Example C94_example : let d := [("Fridge", [("dev 1", 3); ("dev 2", 5)]); ("Oven", [("dev 1", 3)])] in clean_profiles d /\ flatten d = [("Fridge&dev 1", 3); ("Fridge&dev 2", 5); ("Oven&dev 1", 3)].
Proof.
  split; [|vm_compute; reflexivity]. split; [repeat constructor; cbn; intuition discriminate|]. intros t ps [E|[E|[]]]; injection E as <- <-; (split; [discriminate|]); (split; [unfold clean_name; cbn; intuition discriminate|]);
  (split; [repeat constructor; cbn; intuition discriminate|]); intros n a I; cbn in I; unfold clean_name; intuition (match goal with H : (_, _) = (_, _) |- _ => injection H as <- <- end; cbn in *; intuition discriminate).
Qed.

Print Assumptions C57_first.
Print Assumptions C57_frozen.
Print Assumptions C57_names.
Print Assumptions C57_any_order.
Print Assumptions C57_time_attributes_refuted.
Print Assumptions C57_abandoned_refuted.
Print Assumptions C57_numpy_number_refuted.
Print Assumptions C57_number_keys_refuted.
Print Assumptions C91_accepts.
Print Assumptions C91_plain.
Print Assumptions C91_arrays.
Print Assumptions C91_keys.
Print Assumptions C91_precision_refuted.
Print Assumptions C92_tpm_partial.
Print Assumptions C92_duration.
Print Assumptions C92_dict.
Print Assumptions C92_sparse.
Print Assumptions C92_shared_file_refuted.
Print Assumptions C93_slice_partial.
Print Assumptions C93_early_refuted.
Print Assumptions C94_profiles_partial.
Print Assumptions C94_separator_refuted.
Print Assumptions C94_empty_refuted.
Print Assumptions C57_refused.
