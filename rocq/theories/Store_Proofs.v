(** * Proofs about files kept by the loaders: arrays, step sizes, climate, measured
    profiles. *)

From Coq Require Import String Ascii List ZArith QArith Bool Arith Lia.
From Verif Require Import Prelude PreludeFacts SpecBase Subgroup_Model Subgroup_NameProofs Loader_Model Loader_Proofs Loader_FileProofs Store_Model Store_Spec.
Import ListNotations.
Local Open Scope string_scope.

Lemma get_put : forall A (d : list (string * A)) k v x, dget String.eqb (dset String.eqb d k v) x = if String.eqb k x then Some v else dget String.eqb d x.
Proof.
  intros A d k v x. destruct (String.eqb_spec k x) as [->|N]; [apply (dget_dset_same _ _ _ String.eqb_eq)|apply (dget_dset_other _ _ _ String.eqb_eq); congruence].
Qed.

(** ** Saved arrays *)

Lemma ends_app : forall s p, ends_with s p = true -> exists q, s = q ++ p.
Proof.
  induction s as [|c s IH]; intros p H; cbn [ends_with] in H; apply orb_true_iff in H as [H|H].
  - apply String.eqb_eq in H. exists "". exact H.
  - discriminate.
  - apply String.eqb_eq in H. exists "". exact H.
  - destruct (IH p H) as (q & ->). exists (String c q). reflexivity.
Qed.

Lemma bare_npy : forall name, bare name -> with_suffix name ".npy" = name ++ ".npy".
Proof. intros name B. unfold with_suffix. destruct (ends_with name ".npy") eqn:E; [|reflexivity]. apply ends_app in E as (q & E). destruct (B q) as (N & _). contradiction. Qed.
Lemma bare_npz : forall name, bare name -> with_suffix name ".npz" = name ++ ".npz".
Proof. intros name B. unfold with_suffix. destruct (ends_with name ".npz") eqn:E; [|reflexivity]. apply ends_app in E as (q & E). destruct (B q) as (_ & N). contradiction. Qed.

(** ** Step sizes *)

Lemma step_main : forall us, timedelta_of [("days", td_days us); ("seconds", td_seconds us); ("microseconds", td_micro us)] = Ok us.
Proof.
  intro us. unfold timedelta_of. cbn [fold_left bind fst snd]. change (Ok (0 + day_us * td_days us + 1000000 * td_seconds us + td_micro us)%Z = Ok us). f_equal.
  unfold td_days, td_seconds, td_micro, day_us. pose proof (Z.div_mod us 86400000000 ltac:(lia)). pose proof (Z.div_mod (us mod 86400000000) 1000000 ltac:(lia)).
  assert (E : ((us mod 86400000000) mod 1000000 = us mod 1000000)%Z).
  { change 86400000000%Z with (1000000 * 86400)%Z. rewrite Z.rem_mul_r by lia. rewrite Z.mul_comm, Z.mod_add by lia. apply Z.mod_mod. lia. }
  lia.
Qed.

(** ** Climate of a country *)

Lemma spells_iff : forall name code, spells_b name code = true <-> spells name code.
Proof.
  intros name code. unfold spells_b, spells. rewrite orb_true_iff, andb_true_iff, Nat.eqb_eq, String.eqb_eq, existsb_exists. split.
  - intros [(L & E)|(e & I & E)]; [left; split; [exact L|congruence]|right]. apply andb_true_iff in E as (E & F). apply String.eqb_eq in E, F. subst. destruct e. exact I.
  - intros [(L & E)|I]; [left; split; [exact L|congruence]|right]. exists (name, code). split; [exact I|]. cbn [fst snd]. rewrite !String.eqb_refl. reflexivity.
Qed.

Lemma code_spells : forall name code, country_code name = Ok code <-> spells name code.
Proof.
  intros name code. unfold country_code, spells. destruct (Nat.eqb_spec (String.length name) 2) as [L|L].
  - split; [intro E; injection E as <-; left; split; [exact L|reflexivity]|]. intros [(_ & ->)|I]; [reflexivity|]. exfalso.
    destruct I as [E|[E|[E|[]]]]; injection E as <- <-; vm_compute in L; discriminate L.
  - unfold country_table. cbn [dget]. split.
    + destruct (String.eqb_spec name "germany") as [->|]; [intro E; injection E as <-; right; left; reflexivity|].
      destruct (String.eqb_spec name "switzerland") as [->|]; [intro E; injection E as <-; right; right; left; reflexivity|].
      destruct (String.eqb_spec name "england") as [->|]; [intro E; injection E as <-; right; right; right; left; reflexivity|]. discriminate.
    + intros [(E & _)|I]; [contradiction|]. destruct I as [E|[E|[E|[]]]]; injection E as <- <-; reflexivity.
Qed.

Lemma spells_len : forall name code, spells name code -> String.length code = 2%nat.
Proof. intros name code [(L & ->)|I]; [exact L|]. destruct I as [E|[E|[E|[]]]]; injection E as <- <-; reflexivity. Qed.

Lemma raw_inj : forall c w c' w', String.length c = 2%nat -> String.length c' = 2%nat -> raw_name c w = raw_name c' w' -> c = c' /\ w = w'.
Proof.
  intros c w c' w' L L' E. unfold raw_name in E. destruct c as [|a [|b [|]]]; try discriminate. destruct c' as [|a' [|b' [|]]]; try discriminate.
  cbn [append] in E. injection E as -> -> E. split; [reflexivity|]. exact (suffix_cancel ".csv" w w' E).
Qed.

Section NinjaProofs.
Context {Raw Data : Type}.
Variable parse : Raw -> result Data.
Notation run := (ninja_run parse).

Lemma run_app : forall cs c, run (cs ++ [c]) = ninja_after parse (run cs) c.
Proof. intros cs c. unfold ninja_run. rewrite fold_left_app. reflexivity. Qed.
Lemma newest_app : forall code w (cs : list (ninja_call Raw)) c, newest code w (cs ++ [c]) =
  match c with
  | Make name w' update server => if spells_b name code && String.eqb w' w && (update || match newest code w cs with None => true | Some _ => false end)
      then match server code w with Ok new => Some new | Err _ => newest code w cs end else newest code w cs
  | Climate _ _ => newest code w cs
  end.
Proof. intros code w cs c. unfold newest. rewrite fold_left_app. reflexivity. Qed.

(** Raw files are the newest downloads. *)
Lemma raw_main : forall cs code w, String.length code = 2%nat -> dget String.eqb (n_raw (run cs)) (raw_name code w) = newest code w cs.
Proof.
  intros cs code w L. induction cs as [|c cs IH] using rev_ind; [reflexivity|]. rewrite run_app, newest_app. destruct c as [name w' u server|name w'].
  - cbn [ninja_after]. unfold construct.
    set (d1 := match dget String.eqb (n_parsed (run cs)) name with Some _ => run cs | None => mkNinja (n_raw (run cs)) (dset String.eqb (n_parsed (run cs)) name None) end).
    assert (R : n_raw d1 = n_raw (run cs)) by (unfold d1; destruct (dget String.eqb (n_parsed (run cs)) name); reflexivity).
    destruct (country_code name) as [c|e] eqn:C.
    + apply code_spells in C. pose proof (spells_len name c C) as Lc.
      destruct (spells_b name code && String.eqb w' w) eqn:B.
      * apply andb_true_iff in B as (B & W). apply String.eqb_eq in W. subst w'. apply spells_iff in B.
        assert (c = code) by (apply code_spells in B, C; congruence). subst c. cbn [andb].
        unfold dmem. rewrite R, IH. destruct (newest code w cs) as [r|] eqn:Nw.
        -- destruct u; cbn [negb andb orb]; [|cbn [fst]; rewrite R; exact IH]. destruct (server code w); cbn [fst n_raw]; [|rewrite R; exact IH]. apply (dget_dset_same _ _ _ String.eqb_eq).
        -- rewrite orb_true_r. cbn [andb]. destruct (server code w); cbn [fst n_raw]; [|rewrite R; exact IH]. apply (dget_dset_same _ _ _ String.eqb_eq).
      * cbn [andb]. destruct (dmem String.eqb (n_raw d1) (raw_name c w') && negb u); [cbn [fst]; rewrite R; exact IH|].
        destruct (server c w'); cbn [fst n_raw]; [|rewrite R; exact IH]. rewrite get_put.
        destruct (String.eqb_spec (raw_name c w') (raw_name code w)) as [E|_]; [exfalso|rewrite R; exact IH].
        destruct (raw_inj _ _ _ _ Lc L E) as (-> & ->). rewrite String.eqb_refl, andb_true_r in B. apply spells_iff in C. congruence.
    + cbn [fst]. rewrite R. assert (B : spells_b name code = false).
      { destruct (spells_b name code) eqn:B; [|reflexivity]. apply spells_iff, code_spells in B. congruence. }
      rewrite B. exact IH.
  - cbn [ninja_after]. unfold climate. destruct (dget String.eqb (n_parsed (run cs)) name) as [[x|]|]; cbn [fst]; try exact IH.
    destruct (country_code name); [|exact IH]. destruct (dget String.eqb (n_raw (run cs)) (raw_name a w')); [|exact IH]. destruct (parse r); exact IH.
Qed.

(** Folders exist once an object was constructed. *)
Lemma folder_main : forall cs name, made name cs <-> dget String.eqb (n_parsed (run cs)) name <> None.
Proof.
  intros cs name. induction cs as [|c cs IH] using rev_ind; [split; [intros (? & ? & ? & [])|intro N; exfalso; apply N; reflexivity]|].
  rewrite run_app. destruct c as [n w u server|n w].
  - assert (P : dget String.eqb (n_parsed (ninja_after parse (run cs) (Make n w u server))) name <> None <-> n = name \/ dget String.eqb (n_parsed (run cs)) name <> None).
    { cbn [ninja_after]. unfold construct.
      set (d1 := match dget String.eqb (n_parsed (run cs)) n with Some _ => run cs | None => mkNinja (n_raw (run cs)) (dset String.eqb (n_parsed (run cs)) n None) end).
      assert (Q : dget String.eqb (n_parsed d1) name <> None <-> n = name \/ dget String.eqb (n_parsed (run cs)) name <> None).
      { unfold d1. destruct (dget String.eqb (n_parsed (run cs)) n) eqn:E.
        - split; [tauto|]. intros [<-|X]; [congruence|exact X].
        - cbn [n_parsed]. rewrite get_put. destruct (String.eqb_spec n name); split; try tauto; try discriminate. }
      destruct (country_code n); [|exact Q]. destruct (dmem String.eqb (n_raw d1) (raw_name a w) && negb u); [exact Q|]. destruct (server a w); [|exact Q]. cbn [fst n_parsed]. rewrite get_put.
      destruct (String.eqb_spec n name) as [E|E]; [split; [tauto|discriminate]|]. rewrite Q. reflexivity. }
    rewrite P, <- IH. split.
    + intros (w' & u' & s' & I). apply in_app_or in I as [I|[I|[]]]; [right; exists w', u', s'; exact I|left; congruence].
    + intros [->|(w' & u' & s' & I)]; [exists w, u, server; apply in_or_app; right; left; reflexivity|exists w', u', s'; apply in_or_app; left; exact I].
  - assert (P : dget String.eqb (n_parsed (ninja_after parse (run cs) (Climate n w))) name <> None <-> dget String.eqb (n_parsed (run cs)) name <> None).
    { cbn [ninja_after]. unfold climate. destruct (dget String.eqb (n_parsed (run cs)) n) as [[x|]|] eqn:E; try reflexivity.
      destruct (country_code n); [|reflexivity]. destruct (dget String.eqb (n_raw (run cs)) (raw_name a w)); [|reflexivity]. destruct (parse r); [|reflexivity]. cbn [fst n_parsed]. rewrite get_put.
      destruct (String.eqb_spec n name) as [<-|]; [rewrite E; split; discriminate|reflexivity]. }
    rewrite P, <- IH. split; intros (w' & u' & s' & I); exists w', u', s'; [apply in_app_or in I as [I|[I|[]]]; [exact I|discriminate]|apply in_or_app; left; exact I].
Qed.

(** Parsed data are those of the newest download. *)
Lemma parsed_main : forall cs name w code, spells name code -> one_spelling name w cs -> forall x, dget String.eqb (n_parsed (run cs)) name = Some (Some x) ->
  exists r, newest code w cs = Some r /\ parse r = Ok x.
Proof.
  intros cs name w code S. induction cs as [|c cs IH] using rev_ind; intros O x; [discriminate|].
  assert (O' : one_spelling name w cs) by (intros c' n' w' code' I; apply (O c' n' w' code'); apply in_or_app; left; exact I).
  specialize (IH O'). rewrite run_app, newest_app. pose proof (spells_len _ _ S) as L. destruct c as [n w' u server|n w'].
  - cbn [ninja_after]. unfold construct.
    set (d1 := match dget String.eqb (n_parsed (run cs)) n with Some _ => run cs | None => mkNinja (n_raw (run cs)) (dset String.eqb (n_parsed (run cs)) n None) end).
    assert (R : n_raw d1 = n_raw (run cs)) by (unfold d1; destruct (dget String.eqb (n_parsed (run cs)) n); reflexivity).
    assert (Q : dget String.eqb (n_parsed d1) name = Some (Some x) -> dget String.eqb (n_parsed (run cs)) name = Some (Some x)).
    { unfold d1. destruct (dget String.eqb (n_parsed (run cs)) n); [tauto|]. cbn [n_parsed]. rewrite get_put. destruct (String.eqb n name); [discriminate|tauto]. }
    destruct (country_code n) as [c|e] eqn:C.
    + apply code_spells in C.
      destruct (spells_b n code) eqn:B.
      * apply spells_iff in B. destruct (O (Make n w' u server) n w' code) as (-> & ->); [apply in_or_app; right; left; reflexivity|reflexivity|exact S|exact B|].
        assert (c = code) by (apply code_spells in C, S; congruence). subst c. rewrite String.eqb_refl. cbn [andb]. unfold dmem. rewrite R, (raw_main cs code w L).
        destruct (newest code w cs) as [r|] eqn:Nw.
        -- destruct u; cbn [negb andb orb]; [|cbn [fst]; intro H; exact (IH x (Q H))]. destruct (server code w); cbn [fst n_parsed]; [rewrite get_put, String.eqb_refl; discriminate|intro H; exact (IH x (Q H))].
        -- rewrite orb_true_r. cbn [andb]. destruct (server code w); cbn [fst n_parsed]; [rewrite get_put, String.eqb_refl; discriminate|intro H; exact (IH x (Q H))].
      * cbn [andb]. assert (N : n <> name) by (intros ->; apply spells_iff in S; congruence). intro H. apply (IH x). apply Q.
        destruct (dmem String.eqb (n_raw d1) (raw_name c w') && negb u); [exact H|]. destruct (server c w'); [|exact H]. cbn [fst n_parsed] in H. rewrite get_put in H.
        destruct (String.eqb_spec n name); [contradiction|exact H].
    + assert (B : spells_b n code = false).
      { destruct (spells_b n code) eqn:B; [|reflexivity]. apply spells_iff, code_spells in B. congruence. }
      rewrite B. cbn [fst andb]. intro H. exact (IH x (Q H)).
  - cbn [ninja_after]. unfold climate. destruct (dget String.eqb (n_parsed (run cs)) n) as [[y|]|] eqn:E; cbn [fst]; try exact (IH x).
    destruct (country_code n) as [c|] eqn:C; [|exact (IH x)]. apply code_spells in C. destruct (dget String.eqb (n_raw (run cs)) (raw_name c w')) as [r|] eqn:G; [|exact (IH x)].
    destruct (parse r) as [y|] eqn:P; [|exact (IH x)]. cbn [fst n_parsed]. rewrite get_put. destruct (String.eqb_spec n name) as [->|N]; [|exact (IH x)].
    intro H. injection H as ->. destruct (O (Climate name w') name w' code) as (_ & ->); [apply in_or_app; right; left; reflexivity|reflexivity|exact S|exact S|].
    assert (c = code) by (apply code_spells in C, S; congruence). subst c. rewrite (raw_main cs code w L) in G. exists r. split; assumption.
Qed.

Lemma climate_main : forall cs name w code, spells name code -> one_spelling name w cs -> made name cs ->
  snd (climate parse name w (run cs)) = match newest code w cs with Some r => parse r | None => Err FileNotFoundError end.
Proof.
  intros cs name w code S O M. apply folder_main in M. unfold climate. destruct (dget String.eqb (n_parsed (run cs)) name) as [[x|]|] eqn:E; [| |contradiction].
  - destruct (parsed_main cs name w code S O x E) as (r & Nw & P). rewrite Nw, P. reflexivity.
  - rewrite (proj2 (code_spells name code) S). rewrite (raw_main cs code w (spells_len _ _ S)). destruct (newest code w cs) as [r|]; [|reflexivity]. destruct (parse r); reflexivity.
Qed.
End NinjaProofs.

(** ** Measured profiles *)

Lemma first_sep : forall (A : Type) (c : A) u v x y, ~ In c u -> ~ In c v -> (u ++ c :: x)%list = (v ++ c :: y)%list -> u = v /\ x = y.
Proof.
  intros A c u. induction u as [|a u IH]; intros [|b v] x y N M E; cbn in E; injection E; intros; subst.
  - split; reflexivity.
  - exfalso. apply M. left. reflexivity.
  - exfalso. apply N. left. reflexivity.
  - destruct (IH v x y) as (-> & ->); [intro I; apply N; right; exact I|intro I; apply M; right; exact I|assumption|]. split; reflexivity.
Qed.

Lemma folder_inj : forall v s v' s', folder v s = folder v' s' -> v = v' /\ whole_seconds s = whole_seconds s'.
Proof.
  intros v s v' s' E. unfold folder in E.
  assert (F : (v ++ "_step_size_") ++ str_Z (whole_seconds s) = (v' ++ "_step_size_") ++ str_Z (whole_seconds s')).
  { apply (suffix_cancel "_seconds"). apply chars_inj. apply (f_equal list_ascii_of_string) in E. rewrite !chars_app in E. rewrite !chars_app, <- !app_assoc. exact E. }
  apply (f_equal list_ascii_of_string) in F. rewrite !chars_app in F. change (list_ascii_of_string "_step_size_") with (list_ascii_of_string "_step_size" ++ ["_"%char])%list in F.
  rewrite <- !app_assoc in F. cbn [List.app] in F. rewrite !app_assoc in F. apply (f_equal (@rev ascii)) in F. rewrite !rev_app_distr in F. cbn [rev] in F. rewrite <- !app_assoc in F. cbn [List.app] in F.
  assert (D : forall z, ~ In "_"%char (rev (list_ascii_of_string (str_Z z)))).
  { intros z I. apply in_rev in I. apply str_chars in I. destruct I as (I & _). apply I. reflexivity. }
  destruct (first_sep _ _ _ _ _ _ (D _) (D _) F) as (G & H). split.
  - apply app_inv_head in H. apply (f_equal (@rev ascii)) in H. rewrite !rev_involutive in H. exact (chars_inj _ _ H).
  - apply (f_equal (@rev ascii)) in G. rewrite !rev_involutive in G. exact (str_inj _ _ (chars_inj _ _ G)).
Qed.

Lemma dset_at : forall A (l : list (string * A)) k v w r, ~ In k (map fst l) -> dset String.eqb (l ++ (k, w) :: r) k v = (l ++ (k, v) :: r)%list.
Proof.
  intros A l k v w r N. induction l as [|(k', w') l IH]; cbn [List.app dset fst].
  - rewrite String.eqb_refl. reflexivity.
  - destruct (String.eqb_spec k k') as [->|]; [exfalso; apply N; left; reflexivity|]. rewrite IH; [reflexivity|]. intro I. apply N. right. exact I.
Qed.

Lemma replace_all : forall A (new old pre : list (string * A)), map fst old = map fst new -> NoDup (map fst (pre ++ new)) ->
  fold_left (fun d kv => dset String.eqb d (fst kv) (snd kv)) new (pre ++ old)%list = (pre ++ new)%list.
Proof.
  intros A new. induction new as [|(k, v) new IH]; intros [|(k', w) old] pre E N; try discriminate; [reflexivity|]. cbn [map fst] in E. injection E as -> E. cbn [fold_left fst snd].
  rewrite dset_at. 2:{ rewrite map_app in N. cbn [map fst] in N. apply NoDup_remove_2 in N. intro I. apply N. apply in_or_app. left. exact I. }
  replace (pre ++ (k, v) :: old)%list with ((pre ++ [(k, v)]) ++ old)%list by (rewrite <- app_assoc; reflexivity).
  rewrite IH; [rewrite <- app_assoc; reflexivity|exact E|]. rewrite <- app_assoc. exact N.
Qed.

Lemma extract_new : forall File (old : option (list (string * File))) new, NoDup (map fst new) -> (forall l, old = Some l -> map fst l = map fst new) -> extract old new = new.
Proof.
  intros File old new N E. unfold extract. destruct old as [l|].
  - exact (replace_all _ new l [] (E l eq_refl) N).
  - rewrite fold_dset; [reflexivity|exact N].
Qed.

Section TraceProofs.
Context {File Data : Type}.
Notation archive := (list (string * File)).
Variable averaged : archive -> Z -> result Data.
Variable switched_on : Data -> result Data.
Notation run := (trace_run averaged switched_on).
Notation wanted := (from_archive averaged switched_on).

Lemma trun_app : forall cs c, run (cs ++ [c]) = trace_after averaged switched_on (run cs) c.
Proof. intros cs c. unfold trace_run. rewrite fold_left_app. reflexivity. Qed.
Lemma latest_app : forall (cs : list (trace_call File)) c, latest (cs ++ [c]) =
  match c with
  | MakeTrace _ _ update _ server => if Bool.eqb (fst (latest cs)) update then match server with Ok new => (true, Some new) | Err _ => (false, snd (latest cs)) end else latest cs
  | Profile _ _ _ => latest cs
  end.
Proof. intros cs c. unfold latest. rewrite fold_left_app. reflexivity. Qed.

Lemma full_state : forall v s (d : trace_disk File Data), let d' := fst (full_profiles averaged v s d) in t_zip d' = t_zip d /\ t_dir d' = t_dir d.
Proof.
  intros v s d. unfold full_profiles. destruct (dget String.eqb (files_of v s d) "full"); [split; reflexivity|]. destruct (t_dir d) eqn:E; [|cbn [fst]; rewrite E; split; reflexivity].
  destruct (averaged l (whole_seconds s)); cbn [fst]; [|rewrite E; split; reflexivity]. split; [reflexivity|exact E].
Qed.

Lemma profile_state : forall v s k (d : trace_disk File Data), let d' := fst (profiles averaged switched_on v s k d) in t_zip d' = t_zip d /\ t_dir d' = t_dir d.
Proof.
  intros v s k d. unfold profiles. destruct (String.eqb k "full"); [apply full_state|]. destruct (dget String.eqb (files_of v s d) k); [split; reflexivity|].
  destruct (String.eqb k "switchedON"); [|split; reflexivity]. pose proof (full_state v s d) as F. destruct (full_profiles averaged v s d) as (d1, r). cbn [fst] in F. destruct (bind r switched_on); exact F.
Qed.

(** The directory is the archive last downloaded. *)
Lemma state_main : forall names (cs : list (trace_call File)), NoDup names -> (forall v c u s new, In (MakeTrace v c u s (Ok new)) cs -> map fst new = names) ->
  t_zip (run cs) = fst (latest cs) /\ t_dir (run cs) = snd (latest cs) /\ forall a, snd (latest cs) = Some a -> map fst a = names.
Proof.
  intros names cs ND. induction cs as [|c cs IH] using rev_ind; intro S; [split; [reflexivity|]; split; [reflexivity|discriminate]|].
  destruct IH as (Z & D & N); [intros v' c' u' s' new' I; apply (S v' c' u' s' new'); apply in_or_app; left; exact I|]. rewrite trun_app, latest_app. destruct c as [v c u s server|v s k].
  - cbn [trace_after]. unfold make_trace. rewrite Z, D.
    assert (X : forall new, server = Ok new -> extract (snd (latest cs)) new = new /\ map fst new = names).
    { intros new ->. assert (M : map fst new = names) by (apply (S v c u s new); apply in_or_app; right; left; reflexivity). split; [|exact M]. apply extract_new; [rewrite M; exact ND|]. intros l E. rewrite M. exact (N l E). }
    destruct (fst (latest cs)) eqn:F, u; cbn [andb negb Bool.eqb]; cbn [fst snd t_zip t_dir]; try (rewrite F; split; [reflexivity|split; [reflexivity|exact N]]).
    + destruct server as [new|e]; cbn [fst snd t_zip t_dir]; [|split; [reflexivity|split; [reflexivity|exact N]]]. destruct (X new eq_refl) as (-> & M). split; [reflexivity|]. split; [reflexivity|]. intros a E. injection E as <-. exact M.
    + destruct server as [new|e]; cbn [fst snd t_zip t_dir]; [|split; [reflexivity|split; [reflexivity|exact N]]]. destruct (X new eq_refl) as (-> & M). split; [reflexivity|]. split; [reflexivity|]. intros a E. injection E as <-. exact M.
  - cbn [trace_after]. destruct (profile_state v s k (run cs)) as (E & F). rewrite E, F. split; [exact Z|]. split; [exact D|exact N].
Qed.

Lemma zip_none : forall (cs : list (trace_call File)) version step, updates_here version step cs -> fst (latest cs) = false -> snd (latest cs) = None.
Proof.
  intros cs version step. induction cs as [|c cs IH] using rev_ind; intros U; [reflexivity|].
  specialize (IH ltac:(intros v' c' s' a' I; apply (U v' c' s' a'); apply in_or_app; left; exact I)). rewrite latest_app. destruct c as [v c u s server|v s k]; [|exact IH].
  destruct (Bool.eqb (fst (latest cs)) u) eqn:B; [|exact IH]. destruct server as [new|e]; [discriminate|]. intros _. cbn [snd]. apply IH. apply eqb_prop in B. rewrite B.
  destruct u; [|reflexivity]. destruct (U v c s (Err e)) as (_ & _ & new & X); [apply in_or_app; right; left; reflexivity|discriminate].
Qed.

Lemma files_keep : forall v s v' s' k x (d : trace_disk File Data), files_of v s (keep v' s' k x d) = if String.eqb (folder v' s') (folder v s) then dset String.eqb (files_of v s d) k x else files_of v s d.
Proof.
  intros v s v' s' k x d. unfold files_of at 1, keep. cbn [t_parsed]. rewrite get_put. destruct (String.eqb_spec (folder v' s') (folder v s)) as [E|E]; [|reflexivity]. f_equal. unfold files_of. rewrite E. reflexivity.
Qed.

Definition clean (v : string) (s : Z) (d : trace_disk File Data) : Prop := forall kind x, dget String.eqb (files_of v s d) kind = Some x -> wanted (t_dir d) (whole_seconds s) kind = Ok x.

Lemma full_clean : forall v s v' s' d, clean v s d -> clean v s (fst (full_profiles averaged v' s' d)).
Proof.
  intros v s v' s' d C. unfold full_profiles. destruct (dget String.eqb (files_of v' s' d) "full"); [exact C|]. destruct (t_dir d) as [a|] eqn:E; [|exact C].
  destruct (averaged a (whole_seconds s')) as [x|] eqn:A; [|exact C]. cbn [fst]. intros kind y. rewrite files_keep. cbn [keep t_dir]. destruct (String.eqb_spec (folder v' s') (folder v s)) as [F|F]; [|intro H; exact (C kind y H)].
  rewrite get_put. destruct (String.eqb_spec "full" kind) as [<-|]; [|intro H; exact (C kind y H)]. intro H. injection H as <-. apply folder_inj in F as (_ & F). rewrite <- F, E. exact A.
Qed.

Lemma full_result : forall v s d, clean v s d -> snd (full_profiles averaged v s d) = wanted (t_dir d) (whole_seconds s) "full".
Proof.
  intros v s d C. unfold full_profiles. destruct (dget String.eqb (files_of v s d) "full") as [x|] eqn:G; [symmetry; exact (C _ _ G)|]. unfold from_archive. cbn [String.eqb Ascii.eqb Bool.eqb].
  destruct (t_dir d) as [a|]; [|reflexivity]. destruct (averaged a (whole_seconds s)); reflexivity.
Qed.

Lemma clean_ext : forall v s v' s' d, folder v' s' = folder v s -> clean v s d -> clean v' s' d.
Proof. intros v s v' s' d F C kind x. apply folder_inj in F as (-> & F). unfold files_of, folder. rewrite F. exact (C kind x). Qed.

Lemma on_parts : forall v s kind d, clean v s d -> String.eqb kind "full" = false -> String.eqb kind "switchedON" = true ->
  bind (snd (full_profiles averaged v s d)) switched_on = wanted (t_dir d) (whole_seconds s) kind.
Proof.
  intros v s kind d C K L. rewrite (full_result v s d C). unfold from_archive. rewrite K, L. cbn [String.eqb Ascii.eqb Bool.eqb]. destruct (t_dir d); reflexivity.
Qed.

Lemma profile_clean : forall v s v' s' k d, clean v s d -> clean v s (fst (profiles averaged switched_on v' s' k d)).
Proof.
  intros v s v' s' k d C. unfold profiles. destruct (String.eqb k "full") eqn:K; [apply full_clean; exact C|]. destruct (dget String.eqb (files_of v' s' d) k); [exact C|]. destruct (String.eqb k "switchedON") eqn:L; [|exact C].
  pose proof (full_clean v s v' s' d C) as F. pose proof (full_state v' s' d) as St. destruct (string_dec (folder v' s') (folder v s)) as [E|E].
  - pose proof (on_parts v' s' k d (clean_ext _ _ _ _ _ E C) K L) as O. destruct (full_profiles averaged v' s' d) as (d1, r). cbn [fst snd] in *. destruct (bind r switched_on) as [x|]; [|exact F]. cbn [fst].
    intros kind y. rewrite files_keep. cbn [keep t_dir]. rewrite E, String.eqb_refl, get_put. destruct (String.eqb_spec k kind) as [<-|]; [|intro H; exact (F kind y H)]. intro H. injection H as <-.
    destruct St as (_ & St). rewrite St. apply folder_inj in E as (_ & E). rewrite <- E. symmetry. exact O.
  - destruct (full_profiles averaged v' s' d) as (d1, r). cbn [fst] in *. destruct (bind r switched_on) as [x|]; [|exact F]. cbn [fst]. intros kind y. rewrite files_keep. cbn [keep t_dir].
    destruct (String.eqb_spec (folder v' s') (folder v s)); [contradiction|]. exact (F kind y).
Qed.

Lemma profile_result : forall v s k d, clean v s d -> snd (profiles averaged switched_on v s k d) = wanted (t_dir d) (whole_seconds s) k.
Proof.
  intros v s k d C. unfold profiles. destruct (String.eqb k "full") eqn:K; [apply String.eqb_eq in K; subst k; apply full_result; exact C|]. destruct (dget String.eqb (files_of v s d) k) as [x|] eqn:G; [symmetry; exact (C _ _ G)|].
  destruct (String.eqb k "switchedON") eqn:L; [|unfold from_archive; rewrite K, L; reflexivity]. rewrite <- (on_parts v s k d C K L). destruct (full_profiles averaged v s d) as (d1, r). cbn [snd]. destruct (bind r switched_on); reflexivity.
Qed.

Lemma wanted_none : forall n kind x, wanted None n kind <> Ok x.
Proof. intros n kind x. unfold from_archive. destruct (String.eqb kind "full"); [discriminate|]. destruct (String.eqb kind "switchedON"); discriminate. Qed.

Lemma clean_main : forall version step (cs : list (trace_call File)), updates_here version step cs -> same_files cs -> clean version step (run cs).
Proof.
  intros version step cs U (names & ND & S). revert U S. induction cs as [|c cs IH] using rev_ind; intros U S; [intros kind x; discriminate|].
  assert (U' : updates_here version step cs) by (intros v' c' s' a' I; apply (U v' c' s' a'); apply in_or_app; left; exact I).
  assert (S' : forall v c u s new, In (MakeTrace v c u s (Ok new)) cs -> map fst new = names) by (intros v' c' u' s' new' I; apply (S v' c' u' s' new'); apply in_or_app; left; exact I).
  specialize (IH U' S'). destruct (state_main names cs ND S') as (Zi & D & _). rewrite trun_app. destruct c as [v c u s server|v s k]; [|apply profile_clean; exact IH].
  cbn [trace_after]. unfold make_trace. set (files := match dget String.eqb (t_parsed (run cs)) (folder v s) with Some l => if c || u then [] else l | None => [] end).
  assert (P : forall z dir, (forall kind x, dget String.eqb (files_of version step (run cs)) kind = Some x -> u = false -> wanted dir (whole_seconds step) kind = Ok x) -> clean version step (mkTrace z dir (dset String.eqb (t_parsed (run cs)) (folder v s) files))).
  { intros z dir H kind x. unfold files_of. cbn [t_parsed t_dir]. rewrite get_put. destruct (String.eqb_spec (folder v s) (folder version step)) as [E|E].
    - subst files. unfold files_of in H. rewrite E. destruct (dget String.eqb (t_parsed (run cs)) (folder version step)); [|discriminate]. destruct u; [rewrite orb_true_r; discriminate|]. destruct c; [discriminate|]. intro G. exact (H kind x G eq_refl).
    - destruct u; [|intro G; exact (H kind x G eq_refl)]. exfalso. apply E. destruct (U v c s server) as (-> & Q & _); [apply in_or_app; right; left; reflexivity|]. unfold folder, whole_seconds. rewrite Q. reflexivity. }
  rewrite Zi. destruct (fst (latest cs)) eqn:F, u; cbn [andb negb fst]; try (apply P; intros kind x G X; first [discriminate X|exact (IH kind x G)]).
  - destruct server; cbn [fst]; apply P; intros kind x G X; discriminate.
  - destruct server; cbn [fst]; apply P; intros kind x G _; [|exact (IH kind x G)]. exfalso. pose proof (IH kind x G) as W. rewrite D, (zip_none cs version step U' F) in W. exact (wanted_none _ _ _ W).
Qed.

Lemma trace_main : forall version step (cs : list (trace_call File)) kind, updates_here version step cs -> same_files cs ->
  snd (profiles averaged switched_on version step kind (run cs)) = wanted (snd (latest cs)) (Z.quot step 1000000) kind.
Proof.
  intros version step cs kind U S. rewrite (profile_result version step kind (run cs) (clean_main version step cs U S)). destruct S as (names & ND & S). destruct (state_main names cs ND S) as (_ & D & _). rewrite D. reflexivity.
Qed.
End TraceProofs.
