(** * Proofs about files kept by the loaders: FfE profiles and the remaining
    caches. *)

From Coq Require Import String Ascii List ZArith QArith Bool Arith Lia.
From Verif Require Import Prelude PreludeFacts SpecBase Subgroup_Model Subgroup_Spec Subgroup_Proofs Subgroup_NameProofs Loader_Model Loader_Spec Loader_Proofs Loader_FileProofs Store_Model Store_Spec Store_Proofs.
Import ListNotations.
Local Open Scope string_scope.

(** ** FfE profiles *)

Definition ffe_holds (raw : ffe_kind -> option (list ffe_row)) (d : store ffe_array) (k : ffe_kind) (seen : bool) : Prop :=
  dget String.eqb d (ffe_file k ++ ".npy") = None /\ dget String.eqb d ((ffe_file k ++ "_labels") ++ ".npz") = None /\
  match seen, raw k with
  | true, Some rows => dget String.eqb d (ffe_file k ++ ".npz") = Some (SNpz [Profiles (map e_values (ffe_rows k rows))]) /\
                       dget String.eqb d ((ffe_file k ++ "_labels") ++ ".npy") = Some (SNpy (Labels (map e_type (ffe_rows k rows))))
  | _, _ => dget String.eqb d (ffe_file k ++ ".npz") = None /\ dget String.eqb d ((ffe_file k ++ "_labels") ++ ".npy") = None
  end.

Definition scaled (k : ffe_kind) (watts : bool) (s : list (list Q)) : list (list Q) :=
  match k with Electric => if watts then map (map (fun x => x * 1000)%Q) s else s | Thermal => s end.

(** What a load returns. *)
Definition ffe_expected (raw : ffe_kind -> option (list ffe_row)) (c : ffe_call) (seen : bool) : result (list (list Q) * option (list Z)) :=
  match raw (c_kind c) with
  | None => Err FileNotFoundError
  | Some rows =>
      let r := ffe_rows (c_kind c) rows in
      if c_labels c && negb (c_pickle c) && seen && match r with [] => false | _ => true end then Err ValueError
      else Ok (scaled (c_kind c) (c_watts c) (map e_values r), if c_labels c then Some (map e_type r) else None)
  end.

Lemma ffe_step : forall raw c d seen, ffe_holds raw d (c_kind c) seen ->
  snd (load_profiles (c_pickle c) raw (c_kind c) (c_labels c) (c_watts c) d) = ffe_expected raw c seen /\
  ffe_holds raw (fst (load_profiles (c_pickle c) raw (c_kind c) (c_labels c) (c_watts c) d)) (c_kind c) true.
Proof.
  intros raw [pickle k labels watts] d seen (N1 & N2 & H). cbn [c_pickle c_kind c_labels c_watts] in *. unfold ffe_expected. cbn [c_pickle c_kind c_labels c_watts].
  unfold load_profiles, load_parsed, load_npy. rewrite N1. cbn [bind]. unfold load_npz. unfold ffe_holds.
  destruct (raw k) as [rows|] eqn:R.
  - destruct seen.
    + destruct H as (H1 & H2). rewrite H1, H2. cbn [existsb ffe_object orb andb ffe_states bind].
      destruct labels; cbn [andb negb].
      * destruct (map e_type (ffe_rows k rows)) as [|t ts] eqn:T.
        -- destruct (ffe_rows k rows) as [|r rs] eqn:Rr; [|discriminate]. cbn [ffe_object andb ffe_labels bind]. rewrite andb_false_r. cbn [fst snd]. split; [reflexivity|]. split; [exact N1|]. split; [exact N2|]. split; assumption.
        -- destruct (ffe_rows k rows) as [|r rs] eqn:Rr; [discriminate|]. cbn [ffe_object andb]. destruct pickle; cbn [negb andb ffe_labels bind fst snd]; (split; [reflexivity|]); (split; [exact N1|]); (split; [exact N2|]); (split; assumption).
      * cbn [fst snd]. split; [destruct k; reflexivity|]. split; [exact N1|]. split; [exact N2|]. split; assumption.
    + destruct H as (H1 & H2). rewrite H1. cbn [ffe_states bind]. rewrite andb_false_r. cbn [andb].
      unfold ffe_parse, save_parsed. cbn [orb]. cbn [bind].
      assert (S1 : with_suffix (ffe_file k) ".npz" = ffe_file k ++ ".npz") by (destruct k; reflexivity).
      assert (S2 : with_suffix (ffe_file k ++ "_labels") ".npy" = (ffe_file k ++ "_labels") ++ ".npy") by (destruct k; reflexivity). rewrite S1, S2. cbn [fst snd]. split; [destruct k; reflexivity|].
      rewrite !get_put. destruct k; cbn; repeat split; assumption.
  - assert (H' : dget String.eqb d (ffe_file k ++ ".npz") = None /\ dget String.eqb d ((ffe_file k ++ "_labels") ++ ".npy") = None) by (destruct seen; exact H).
    destruct H' as (H1 & H2). rewrite H1. cbn [ffe_states bind ffe_parse fst snd]. split; [reflexivity|]. repeat split; assumption.
Qed.

Lemma ffe_frame : forall raw c d k seen, k <> c_kind c -> ffe_holds raw d k seen -> ffe_holds raw (fst (load_profiles (c_pickle c) raw (c_kind c) (c_labels c) (c_watts c) d)) k seen.
Proof.
  intros raw [pickle k' labels watts] d k seen N H. cbn [c_pickle c_kind c_labels c_watts] in *. unfold load_profiles.
  destruct (bind (ffe_states (load_parsed ffe_object pickle d (ffe_file k'))) _) as [(s, l)|e]; [exact H|]. destruct e; try exact H.
  unfold ffe_parse. destruct (raw k') as [rows|]; [|exact H]. unfold save_parsed. cbn [orb bind fst]. unfold ffe_holds in *. rewrite !get_put. destruct k, k'; try contradiction; cbn; exact H.
Qed.

Definition was_loaded (k : ffe_kind) (cs : list ffe_call) : bool := existsb (fun c => match c_kind c, k with Electric, Electric | Thermal, Thermal => true | _, _ => false end) cs.

Lemma ffe_run_holds : forall raw cs k, ffe_holds raw (ffe_run raw cs) k (was_loaded k cs).
Proof.
  intros raw cs. induction cs as [|c cs IH] using rev_ind; intro k; [repeat split; destruct (raw k); split; reflexivity|].
  unfold ffe_run. rewrite fold_left_app. cbn [fold_left]. fold (ffe_run raw cs). unfold was_loaded. rewrite existsb_app. cbn [existsb]. rewrite orb_false_r.
  destruct (match c_kind c, k with Electric, Electric | Thermal, Thermal => true | _, _ => false end) eqn:E.
  - rewrite orb_true_r. assert (c_kind c = k) by (destruct (c_kind c), k; try discriminate; reflexivity). subst k. exact (proj2 (ffe_step raw c _ _ (IH (c_kind c)))).
  - rewrite orb_false_r. apply ffe_frame; [intros ->; destruct (c_kind c); discriminate|]. exact (IH k).
Qed.

Lemma ffe_main : forall raw cs c, snd (load_profiles (c_pickle c) raw (c_kind c) (c_labels c) (c_watts c) (ffe_run raw cs)) = ffe_expected raw c (was_loaded (c_kind c) cs).
Proof. intros raw cs c. exact (proj1 (ffe_step raw c _ _ (ffe_run_holds raw cs (c_kind c)))). Qed.

Lemma loaded_iff : forall k cs, was_loaded k cs = true <-> exists c, In c cs /\ c_kind c = k.
Proof.
  intros k cs. unfold was_loaded. rewrite existsb_exists. split; intros (c & I & E); exists c; (split; [exact I|]); [destruct (c_kind c), k; try discriminate; reflexivity|rewrite E; destruct k; reflexivity].
Qed.

Lemma rows_selected : forall k rows, selected (reported k) rows (ffe_rows k rows).
Proof.
  intros k rows. induction rows as [|e rows IH]; [destruct k; constructor|]. destruct k; cbn [ffe_rows filter] in *.
  - destruct (Z.eqb_spec (e_phase e) 0); constructor; assumption.
  - constructor; [exact I|exact IH].
Qed.
Lemma selected_fun : forall A (P : A -> Prop) l m m', selected P l m -> selected P l m' -> m = m'.
Proof. intros A P l m m' S. revert m'. induction S; intros m' S'; inversion S'; subst; try contradiction; [reflexivity|f_equal; auto|auto]. Qed.

Lemma scaled_main : forall k watts rows, profiles_of k watts rows (scaled k watts (map e_values rows)).
Proof.
  intros k watts rows. unfold profiles_of, scaled.
  assert (S : forall row : ffe_row, forall f : Q -> Q, (forall x, f x == x * unit_factor k watts)%Q -> Forall2 (fun x y => y == x * unit_factor k watts)%Q (e_values row) (map f (e_values row))).
  { intros row f F. induction (e_values row); cbn; constructor; auto. }
  assert (T : (forall x, x == x * unit_factor k watts)%Q -> Forall2 (fun row ys => Forall2 (fun x y => y == x * unit_factor k watts)%Q (e_values row) ys) rows (map e_values rows)).
  { intro F. induction rows as [|row rows IH]; cbn; constructor; [|exact IH]. rewrite <- (map_id (e_values row)) at 2. apply S. exact F. }
  destruct k; [destruct watts|]; try (apply T; intro x; cbn; ring). clear T. rewrite map_map. induction rows as [|row rows IH]; cbn [map]; constructor; [apply S; intro x; reflexivity|exact IH].
Qed.

(** ** Conversion for json *)

Lemma convertible_main : forall ft o, convertible o -> exists j, jsoned ft o j /\ lists_for o j.
Proof.
  intro ft. induction o using obj_induction; cbn [convertible]; intro H'; try contradiction.
  - exists ONone. split; [exists ONone; split; reflexivity|constructor].
  - exists (OPy x). split; [exists (OPy x); split; reflexivity|constructor].
  - exists (OPy x). split; [exists (OPy x); split; reflexivity|constructor].
  - destruct (jsoned_list ft l lists_for) as (l' & J & _ & F); [|exists (OList l'); split; [exact J|constructor; exact F]].
    apply all_of_forall in H'. apply Forall_forall. intros x I. rewrite Forall_forall in H, H'. exact (H x I (H' x I)).
  - destruct (jsoned_list ft l lists_for) as (l' & _ & J & F); [|exists (OList l'); split; [exact J|constructor; exact F]].
    apply all_of_forall in H'. apply Forall_forall. intros x I. rewrite Forall_forall in H, H'. exact (H x I (H' x I)).
  - destruct H' as ((keys & K & N) & A). apply all_of_forall in A.
    assert (X : Forall (fun kv => exists j, jsoned ft (snd kv) j /\ lists_for (snd kv) j) items).
    { clear K N. induction items as [|[k v] items IH]; [constructor|]. inversion H as [|? ? (_ & Hv) H2]; inversion A as [|? ? Av A2]; subst. constructor; [exact (Hv Av)|apply IH; assumption]. }
    destruct (make_strings items keys K (fun a m => exists j, json_trip ft m = Ok j /\ lists_for a j)) as (ms & M & SK & F).
    { clear - X. induction X as [|kv l (j & (m & J1 & J2) & E) X IH]; [constructor|]. constructor; [|exact IH]. exists m. split; [exact J1|]. exists j. split; assumption. }
    destruct (trip_strings ft ms keys SK N (fun m j => forall a, (forall j', json_trip ft m = Ok j' -> lists_for a j') -> lists_for a j)) as (js & T & TK & G).
    { clear - F. induction F as [|a b l l' (_ & (j & J & _)) F IH]; [constructor|]. constructor; [|exact IH]. exists j. split; [exact J|]. intros a0 H0. apply H0. exact J. }
    exists (ODict js). split; [exists (ODict ms); split; assumption|]. constructor. clear - F G.
    revert js G. induction F as [|[k v] [k2 m] l l' (Ek & (j & J & Ej)) F IH]; intros js G; inversion G as [|? [k3 j3] ? js' (Ek' & Q) G']; subst; [constructor|].
    cbn in Ek, Ek', Q, J, Ej. constructor; [|exact (IH js' G')]. cbn [fst snd]. split; [congruence|]. apply Q. intros j' J'. rewrite J in J'. injection J' as <-. exact Ej.
Qed.

(** ** Caches *)

Section Cache.
Variable ft : Q -> string.

Definition kept_value (k : kept) (a : answer) : result answer :=
  match k, a with
  | (CrestLight | Bulbs), AObj o => bind (kept_out k o) (fun x => Ok (AObj x))
  | _, _ => Ok a
  end.

Lemma bulbs_values : forall items r, Forall2 (fun kv y => pair_result (lists_to_numpy_array (fst kv)) (lists_to_numpy_array (snd kv)) = Ok y) items r ->
  Forall (fun y : obj * obj => (exists s, fst y = OPy s) /\ exists l, snd y = OArr l) r -> map (fun kv => (fst kv, np_asarray (snd kv))) items = r.
Proof.
  intros items r F G. induction F as [|(k, v) (k', v') items r E F IH]; [reflexivity|]. inversion G as [|? ? ((s & S) & (l & L)) G']; subst. cbn [map fst snd] in *. subst k' v'. f_equal; [|exact (IH G')].
  assert (K : lists_to_numpy_array k = Ok (OPy s) /\ lists_to_numpy_array v = Ok (OArr l)).
  { destruct (lists_to_numpy_array k) as [x|]; [|discriminate]. destruct (lists_to_numpy_array v) as [y|]; [|discriminate]. cbn in E. injection E as -> ->. split; reflexivity. }
  destruct K as (K1 & K2). f_equal.
  - destruct k; try discriminate; cbn [lists_to_numpy_array] in K1; [congruence|]. destruct (each _ items0); discriminate.
  - destruct v; try discriminate; cbn [lists_to_numpy_array np_asarray] in *; try congruence. destruct (each _ items0); discriminate.
Qed.

Lemma bulbs_main : forall items, cacheable Bulbs (AObj (ODict items)) -> exists j r, bind (make_jsonable (ODict items)) (json_trip ft) = Ok j /\
  kept_out Bulbs j = Ok (ODict r) /\ kept_out Bulbs (ODict items) = Ok (ODict r) /\ Forall2 (fun kv kv' => fst kv = fst kv' /\ arrays_of (snd kv) (snd kv')) items r.
Proof.
  intros items (K & V). assert (St : storable (ODict items)).
  { cbn [storable]. split; [exact K|]. apply all_of_forall. apply Forall_forall. intros (k, v) I. exact (proj2 (V k v I)). }
  destruct (storable_trip ft _ St) as (j & (m & M & J) & E & D). destruct (D items eq_refl) as (items' & ->). destruct (storable_arrays _ St) as (out & O & R). inversion R as [| | |? r F]; subst.
  exists (ODict items'), r. split; [rewrite M; exact J|].
  assert (G : Forall (fun y : obj * obj => (exists s, fst y = OPy s) /\ exists l, snd y = OArr l) r).
  { destruct K as (keys & K & _). clear - F V K. revert keys K. induction F as [|(k, v) (k', v') items r (Ek & Ev) F IH]; intros keys K; [constructor|]. cbn [fst snd] in *. constructor.
    - cbn [fst snd]. split; [|destruct (V k v (or_introl eq_refl)) as ((l & [X|X]) & _); subst v; inversion Ev; eexists; reflexivity].
      destruct (string_keys_cons _ _ _ _ K) as (s & keys' & _ & X & _). exists (SStr s). congruence.
    - destruct (string_keys_cons _ _ _ _ K) as (s & keys' & _ & _ & K'). apply (IH (fun k0 v0 I => V k0 v0 (or_intror I)) keys' K'). }
  assert (Y : forall its, lists_to_numpy_array (ODict its) = Ok (ODict r) -> kept_out Bulbs (ODict its) = Ok (ODict r)).
  { intros its H. cbn [kept_out]. do 2 f_equal. apply bulbs_values; [|exact G]. cbn [lists_to_numpy_array] in H.
    destruct (each (fun kv => match kv with (k, v) => pair_result (lists_to_numpy_array k) (lists_to_numpy_array v) end) its) as [r'|] eqn:Q; [|discriminate]. cbn [bind] in H. injection H as ->.
    apply each_inv in Q. clear - Q. induction Q as [|(k, v) y its r H Q IH]; constructor; [exact H|exact IH]. }
  split; [apply Y; rewrite E; exact O|]. split; [apply Y; exact O|exact F].
Qed.

Definition json_kept (k : kept) : bool := match k with BulbsConfig _ | Ownership _ | Clearness => false | _ => true end.

Lemma json_main : forall k a, json_kept k = true -> cacheable k a -> exists o j x, a = AObj o /\ bind (if converts k then make_jsonable o else Ok o) (json_trip ft) = Ok j /\
  kept_out k j = Ok x /\ kept_out k o = Ok x /\ kept_value k a = Ok (AObj x) /\ gives k a (AObj x).
Proof.
  intros k a Jk C.
  assert (Pl : forall o, plain_json o -> bind (make_jsonable o) (json_trip ft) = Ok o /\ bind (Ok o) (json_trip ft) = Ok o).
  { intros o P. rewrite (make_plain o P). cbn [bind]. rewrite (trip_plain ft o P). split; reflexivity. }
  destruct k; try discriminate; destruct a as [o| |]; cbn [cacheable] in C; try contradiction; exists o;
    try (exists o, o; destruct (Pl o C) as (P1 & P2); cbn [converts kept_out kept_value gives]; repeat split; assumption).
  - destruct (storable_trip ft o C) as (j & (m & M & J) & E & _). destruct (storable_arrays o C) as (out & O & R). exists j, out. cbn [converts kept_out kept_value gives]. rewrite M. cbn [bind].
    split; [reflexivity|]. split; [exact J|]. rewrite E, O. repeat split. exact R.
  - destruct o as [| | | | |items|]; cbn [cacheable] in C; try contradiction. destruct (bulbs_main items C) as (j & r & J & O1 & O2 & F). exists j, (ODict r). cbn [converts kept_value]. rewrite O2. cbn [bind].
    split; [reflexivity|]. split; [exact J|]. split; [exact O1|]. split; [reflexivity|]. split; [reflexivity|exact F].
Qed.

Definition stored (k : kept) (a : answer) (d : cache) : Prop :=
  match k with
  | BulbsConfig _ => exists o, a = AObj o /\ dget String.eqb d (kept_path k) = Some (FNpy o)
  | Ownership _ => exists items, a = ADictionary items /\ dget String.eqb d (kept_path k) = Some (FNpz items)
  | Clearness => exists t l s, a = AClear t l s /\ dget String.eqb d (kept_path k) = Some (FNpy t) /\ dget String.eqb d clearness_labels_path = Some (FNpy l) /\ dget String.eqb d clearness_step_path = Some (FJson (step_json s))
  | _ => exists j, dget String.eqb d (kept_path k) = Some (FJson j) /\ bind (kept_out k j) (fun x => Ok (AObj x)) = kept_value k a
  end.

Lemma stored_fetch : forall k a d, stored k a d -> forall parse, fetch ft parse k d = (d, kept_value k a).
Proof.
  intros k a d S parse. destruct k; cbn [stored] in S; cbn [fetch]; try (destruct S as (j & G & V); unfold fetch_json; rewrite G, V; reflexivity).
  - destruct S as (o & -> & G). unfold fetch_array. rewrite G. reflexivity.
  - destruct S as (o & -> & G). unfold fetch_arrays. rewrite G. reflexivity.
  - destruct S as (t & l & s & -> & G1 & G2 & G3). unfold fetch_clearness, npy, json_step. rewrite G1, G2, G3. cbn [bind step_json]. rewrite step_main. reflexivity.
Qed.

Lemma fetch_first : forall parse k d a, absent k d -> parse k = Ok a -> cacheable k a -> exists d', fetch ft parse k d = (d', kept_value k a) /\ stored k a d' /\
  forall p, ~ In p (paths k) -> dget String.eqb d' p = dget String.eqb d p.
Proof.
  intros parse k d a N P C. destruct (json_kept k) eqn:Jk.
  - destruct (json_main k a Jk C) as (o & j & x & -> & J & O1 & O2 & V & G).
    assert (F : forall pr dd, fetch ft pr k dd = fetch_json ft pr k dd) by (intros; destruct k; try discriminate; reflexivity).
    assert (N' : dget String.eqb d (kept_path k) = None) by (apply N; destruct k; try discriminate; left; reflexivity).
    exists (dset String.eqb d (kept_path k) (FJson j)). rewrite F. unfold fetch_json. rewrite N', P, J, O2. cbn [bind]. split; [rewrite V; reflexivity|]. split.
    + assert (X : exists j', dget String.eqb (dset String.eqb d (kept_path k) (FJson j)) (kept_path k) = Some (FJson j') /\ bind (kept_out k j') (fun x0 => Ok (AObj x0)) = kept_value k (AObj o)).
      { exists j. rewrite get_put, String.eqb_refl, O1, V. split; reflexivity. }
      destruct k; try discriminate; exact X.
    + intros p M. rewrite get_put. destruct (String.eqb_spec (kept_path k) p) as [E|]; [exfalso|reflexivity]. apply M. rewrite <- E. destruct k; try discriminate; left; reflexivity.
  - destruct k; try discriminate; destruct a as [o|items|t l s]; cbn [cacheable] in C; try contradiction; pose proof (N _ (or_introl eq_refl)) as N'; eexists; cbn [fetch kept_value].
    + split; [unfold fetch_array; rewrite N', P; reflexivity|]. split; [exists o; rewrite get_put, String.eqb_refl; split; reflexivity|].
      intros p M. rewrite get_put. destruct (String.eqb_spec (kept_path (BulbsConfig sg)) p) as [E|]; [exfalso; apply M; left; exact E|reflexivity].
    + split; [unfold fetch_arrays; rewrite N', P; reflexivity|]. split; [exists items; rewrite get_put, String.eqb_refl; split; reflexivity|].
      intros p M. rewrite get_put. destruct (String.eqb_spec (kept_path (Ownership sg)) p) as [E|]; [exfalso; apply M; left; exact E|reflexivity].
    + split; [unfold fetch_clearness, npy; rewrite N'; cbn [bind]; rewrite P; reflexivity|]. split; [exists t, l, s; rewrite !get_put; repeat split; reflexivity|].
      intros p M. rewrite !get_put. destruct (String.eqb_spec clearness_step_path p) as [E|]; [exfalso; apply M; right; right; left; exact E|].
      destruct (String.eqb_spec clearness_labels_path p) as [E|]; [exfalso; apply M; right; left; exact E|]. destruct (String.eqb_spec (kept_path Clearness) p) as [E|]; [exfalso; apply M; left; exact E|]. reflexivity.
Qed.

Lemma value_gives : forall k a, cacheable k a -> exists out, kept_value k a = Ok out /\ gives k a out.
Proof.
  intros k a C. destruct (json_kept k) eqn:Jk; [destruct (json_main k a Jk C) as (o & j & x & -> & _ & _ & _ & V & G); exists (AObj x); split; assumption|].
  destruct k; try discriminate; exists a; split; reflexivity.
Qed.

Lemma join : forall a b c : string, a ++ b ++ c = (a ++ b) ++ c.
Proof. intros a b c. apply chars_inj. rewrite !chars_app, app_assoc. reflexivity. Qed.

(** Different data have different files. *)
Lemma paths_main : forall k k' p, plain_kept k -> plain_kept k' -> In p (paths k) -> In p (paths k') -> same_kept k k'.
Proof.
  intros k k' p P P' I I'.
  destruct k, k'; cbn [paths In kept_path] in I, I'; cbn [plain_kept same_kept] in *; try exact I;
    repeat match goal with H : _ \/ _ |- _ => destruct H as [H|H] | H : False |- _ => contradiction end; subst p; try tauto;
    try (cbn in *; discriminate); 
    try (apply prefix_cancel in I'; apply suffix_cancel in I'; congruence);
    try (apply prefix_cancel in I'; apply suffix_cancel in I'; symmetry in I'; (apply string_inj in I'; [exact I'|assumption|assumption]) || (apply string_inj in I'; [exact I'|apply remove_plain; assumption|apply remove_plain; assumption]));
    exfalso.
  all: revert I'; rewrite !join; apply suffix_clash; reflexivity.
Qed.

(** The same data have the same files and are stored by the same contents. *)
Lemma same_paths : forall k k', plain_kept k -> plain_kept k' -> same_kept k k' -> paths k' = paths k.
Proof.
  intros k k' P P' S. destruct k, k'; cbn [same_kept plain_kept paths kept_path] in *; try contradiction; try reflexivity; try congruence;
  (rewrite (same_string _ _ (proj1 (remove_plain _ P)) (proj1 (remove_plain _ P')) S) || rewrite (same_string _ _ (proj1 P) (proj1 P') S)); reflexivity.
Qed.

Lemma same_stored : forall k k' a d, plain_kept k -> plain_kept k' -> same_kept k k' -> stored k a d -> stored k' a d.
Proof.
  intros k k' a d P P' S H. pose proof (same_paths k k' P P' S) as E.
  assert (E' : kept_path k' = kept_path k) by (destruct k, k'; try contradiction; cbn [paths] in E; congruence).
  destruct k, k'; cbn [same_kept] in S; try contradiction; cbn [stored kept_value] in *; try rewrite E'; exact H.
Qed.

Lemma stored_frame : forall k a d d', stored k a d -> (forall p, In p (paths k) -> dget String.eqb d' p = dget String.eqb d p) -> stored k a d'.
Proof.
  intros k a d d' S F. destruct k; cbn [stored] in *; try (rewrite (F _ (or_introl eq_refl)); exact S).
  rewrite (F _ (or_introl eq_refl)), (F clearness_labels_path (or_intror (or_introl eq_refl))), (F clearness_step_path (or_intror (or_intror (or_introl eq_refl)))). exact S.
Qed.

Lemma cache_sequence : forall parse answers univ, (forall k, In k univ -> plain_kept k /\ parse k = Ok (answers k) /\ cacheable k (answers k)) ->
  (forall k k', In k univ -> In k' univ -> same_kept k k' -> answers k = answers k') ->
  forall ks d, incl ks univ -> (forall k, In k univ -> absent k d \/ stored k (answers k) d) ->
  exists d', fetch_all ft parse ks d = (d', map (fun k => kept_value k (answers k)) ks).
Proof.
  intros parse answers univ H Sm. induction ks as [|k ks IH]; intros d I J; [exists d; reflexivity|].
  assert (Ik : In k univ) by (apply I; left; reflexivity). assert (I' : incl ks univ) by (intros x X; apply I; right; exact X). destruct (H k Ik) as (P & A & C). cbn [fetch_all map]. destruct (J k Ik) as [N|S].
  - destruct (fetch_first parse k d (answers k) N A C) as (d' & E & S & F). rewrite E.
    destruct (IH d' I') as (d'' & E'); [|rewrite E'; exists d''; reflexivity]. intros k' Ik'. destruct (H k' Ik') as (P' & _ & _).
    destruct (Exists_dec (fun p => In p (paths k)) (paths k') (fun p => in_dec string_dec p (paths k))) as [X|X].
    + right. apply Exists_exists in X as (p & X1 & X2). pose proof (paths_main k k' p P P' X2 X1) as Sk. rewrite <- (Sm k k' Ik Ik' Sk). exact (same_stored k k' _ d' P P' Sk S).
    + assert (Fr : forall p, In p (paths k') -> dget String.eqb d' p = dget String.eqb d p).
      { intros p Ip. apply F. intro Y. apply X. apply Exists_exists. exists p. split; assumption. }
      destruct (J k' Ik') as [N'|S']; [left; intros p Ip; rewrite (Fr p Ip); exact (N' p Ip)|right; exact (stored_frame k' _ d d' S' Fr)].
  - rewrite (stored_fetch k (answers k) d S parse). destruct (IH d I' J) as (d' & E). rewrite E. exists d'. reflexivity.
Qed.
End Cache.
