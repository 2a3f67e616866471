(** * Properties of the construction of the loaders of CREST and tracebase (C199, C200). *)

From Coq Require Import String List ZArith Bool Lia.
From Verif Require Import Prelude Folder_Model Folder_Spec Folder_Proofs Folder_ZipProofs Folder_GtouProofs Folder_Properties.
Import ListNotations.
Local Open Scope string_scope.

Local Opaque path_dec.

(** ** C199 *)

Lemma sub_then n version sub s v k : sees (on_disk s) v -> v (parsed_path n version) = Some Dir -> free v (folder_of n version sub) ->
  exists d, sees d (put (folder_of n version sub) Dir v) /\ (sub_folder n version sub ;; k) s = k (with_disk s d).
Proof. intros V P F. destruct (sub_folder_does n version sub s v V P F) as (d & E & D). exists d. split; auto. unfold seq_. rewrite E. reflexivity. Qed.

Lemma crest_subs v s u k : let version := Some ("v_" ++ v) in
  sees (on_disk s) u -> u (parsed_path "CREST" version) = Some Dir ->
  (forall p, In p (map (folder_of "CREST" version) ["heating"; "population"; "bulbs"; "climate"; "4_States"]) -> free u p) ->
  exists d u', sees d u' /\ made (map (folder_of "CREST" version) ["heating"; "population"; "bulbs"; "climate"; "4_States"]) u u' /\
    (sub_folder "CREST" version "heating" ;; sub_folder "CREST" version "population" ;; sub_folder "CREST" version "bulbs" ;;
     sub_folder "CREST" version "climate" ;; activity_folder "CREST" version "4_States" ;; k) s = k (with_disk s d).
Proof.
  intros version V P F.
  assert (G : forall p x w, free w p -> free (put x Dir w) p) by (intros; apply free_put; auto).
  destruct (sub_then "CREST" version "heating" s u (sub_folder "CREST" version "population" ;; sub_folder "CREST" version "bulbs" ;; sub_folder "CREST" version "climate" ;; activity_folder "CREST" version "4_States" ;; k)) as (d1 & D1 & E1); auto; [apply F; cbn; auto|].
  destruct (sub_then "CREST" version "population" (with_disk s d1) _ (sub_folder "CREST" version "bulbs" ;; sub_folder "CREST" version "climate" ;; activity_folder "CREST" version "4_States" ;; k) D1) as (d2 & D2 & E2); [apply put_dir; exact P|apply G; apply F; cbn; auto|].
  destruct (sub_then "CREST" version "bulbs" (with_disk s d2) _ (sub_folder "CREST" version "climate" ;; activity_folder "CREST" version "4_States" ;; k) D2) as (d3 & D3 & E3); [repeat apply put_dir; exact P|repeat apply G; apply F; cbn; auto|].
  destruct (sub_then "CREST" version "climate" (with_disk s d3) _ (activity_folder "CREST" version "4_States" ;; k) D3) as (d4 & D4 & E4); [repeat apply put_dir; exact P|repeat apply G; apply F; cbn; auto|].
  destruct (activity_folder_does "CREST" version "4_States" (with_disk s d4) _ D4) as (d5 & E5 & D5); [repeat apply put_dir; exact P|repeat apply G; apply F; cbn; auto 8|].
  eexists d5, _. split; [exact D5|]. split.
  - pose proof (made_trans _ _ _ _ _ (made_put (folder_of "CREST" version "heating") u) (made_trans _ _ _ _ _ (made_put (folder_of "CREST" version "population") _)
      (made_trans _ _ _ _ _ (made_put (folder_of "CREST" version "bulbs") _) (made_trans _ _ _ _ _ (made_put (folder_of "CREST" version "climate") _) (made_put (folder_of "CREST" version "4_States") _))))) as M.
    exact M.
  - rewrite E1. change (with_disk s d2) with (with_disk (with_disk s d1) d2) in E3. rewrite E2, E3. change (with_disk s d4) with (with_disk (with_disk s d3) d4) in E5.
    change (with_disk (with_disk (with_disk s d1) d2) d3) with (with_disk s d3). rewrite E4. unfold seq_. rewrite E5. reflexivity.
Qed.

Definition crest_last (w : world) (v : string) : act :=
  when (fun s => negb (isfile (on_disk s) (crest_file v)))
    (match url_of crest_urls v with None => raise BadValue | Some u => fetch_to w u (crest_file v) end).

Lemma crest_prepared w v s : ready "CREST" (crest_folders v) (look s) ->
  exists d u, sees d u /\ made (crest_folders v) (look s) u /\ crest_init w v false s = crest_last w v (with_disk s d).
Proof.
  intros R. unfold crest_init. set (version := Some ("v_" ++ v)).
  destruct (dataset_init_does "CREST" version s (look s) (fun p => eq_refl)) as (d1 & E1 & D1).
  { eapply ready_incl; [exact R|]. intros p I. unfold crest_folders. apply in_or_app. auto. }
  destruct (crest_subs v (with_disk s d1) _ (crest_last w v) D1 (based_parsed _ _ _)) as (d2 & u & D2 & M & E2).
  { intros p I. eapply made_free; [apply based_made|]. apply R. unfold crest_folders. apply in_or_app. auto. }
  exists d2, u. split; [exact D2|]. split; [apply (made_trans _ _ _ _ _ (based_made "CREST" version (look s)) M)|].
  unfold seq_ at 1. rewrite E1. exact E2.
Qed.

Lemma model_file v ps : incl ps (crest_folders v) -> ~ In (crest_model v) ps.
Proof. intros I H. apply I in H. cbn in H. repeat destruct H as [H|H]; try discriminate; contradiction. Qed.

Lemma crest_last_kept w v s d u b : sees d u -> u (crest_model v) = Some (File b) -> crest_last w v (with_disk s d) = (with_disk s d, None).
Proof. intros D E. unfold crest_last, when, isfile. cbn [on_disk with_disk]. change (crest_file v) with (crest_model v). rewrite D, E. reflexivity. Qed.

Lemma crest_last_get w v s d u : sees d u -> u (crest_model v) = None ->
  crest_last w v (with_disk s d) = match url_of crest_urls v with None => raise BadValue | Some l => fetch_to w l (crest_file v) end (with_disk s d).
Proof. intros D E. unfold crest_last, when, isfile. cbn [on_disk with_disk]. change (crest_file v) with (crest_model v). rewrite D, E. reflexivity. Qed.

(** With the workbook of the version at hand no server is contacted: the missing folders
    are made and nothing else changes. *)
Theorem C199_kept : forall w v s b, ready "CREST" (crest_folders v) (look s) -> look s (crest_model v) = Some (File b) ->
  exists s', crest_init w v false s = (s', None) /\ quiet s s' /\ made (crest_folders v) (look s) (look s').
Proof.
  intros w v s b R F. destruct (crest_prepared w v s R) as (d & u & D & M & E). rewrite E, (crest_last_kept w v s d u b D).
  - eexists. split; [reflexivity|]. split; [repeat split|]. destruct M as [A B]. split; intros p I; unfold look; cbn [on_disk with_disk]; rewrite D; auto. apply B. exact I.
  - destruct M as [_ M]. rewrite M; [exact F|]. apply model_file. apply incl_refl.
Qed.

(** Clearing: of the parsed data of this version only the five empty folders are left; the
    other versions and the workbooks stay, and nobody is asked. *)
Theorem C199_clear : forall w v s b, ready "CREST" (crest_folders v) (look s) -> look s (crest_model v) = Some (File b) ->
  exists s', crest_init w v true s = (s', None) /\ quiet s s' /\
    (forall p, In p (crest_folders v) -> look s' p = Some Dir) /\
    (forall p, inside ["CREST"; "parsed_data"; "v_" ++ v] p -> ~ In p (crest_folders v) -> look s' p = None) /\
    (forall p, ~ inside ["CREST"; "parsed_data"; "v_" ++ v] p -> ~ In p (crest_folders v) -> look s' p = look s p).
Proof.
  intros w v s b R F. unfold crest_init. set (version := Some ("v_" ++ v)).
  destruct (dataset_init_clear "CREST" version s (look s) (clear_base "CREST" version) (renew (parsed_path "CREST" version) (based "CREST" version (look s))) (fun p => eq_refl)) as (d1 & E1 & D1).
  { eapply ready_incl; [exact R|]. intros p I. unfold crest_folders. apply in_or_app. auto. }
  { intros d D. apply clear_version; [exact D|apply based_parsed|apply based_parsed0]. }
  assert (Su : forall sub, exists x t, folder_of "CREST" version sub = (parsed_path "CREST" version ++ x :: t)%list) by (intros sub; exists sub, []; reflexivity).
  destruct (crest_subs v (with_disk s d1) _ (crest_last w v) D1 (renew_at _ _)) as (d2 & u & D2 & [M1 M2] & E2).
  { intros p I b'. fold version in I |- *. apply in_map_iff in I as (sub & <- & _). destruct (Su sub) as (x & t & ->). rewrite renew_in. discriminate. }
  fold version in M1, M2, E2.
  pose proof (based_made "CREST" version (look s)) as [B1 B2].
  assert (NM : ~ inside (parsed_path "CREST" version) (crest_model v)) by (intros [r H]; discriminate).
  assert (X : crest_last w v (with_disk s d2) = (with_disk s d2, None)).
  { apply (crest_last_kept w v s d2 u b D2). rewrite M2 by (apply model_file; intros p I; unfold crest_folders; apply in_or_app; right; exact I). rewrite renew_out by exact NM. rewrite B2; [exact F|].
    apply (model_file v). intros p I. unfold crest_folders. apply in_or_app. left. exact I. }
  unfold seq_ at 1. rewrite E1. change (with_disk (with_disk s d1) d2) with (with_disk s d2) in E2. unfold crest_last in E2, X. cbn [negb] in *. rewrite E2. rewrite X.
  eexists. split; [reflexivity|]. split; [repeat split|]. unfold look in *. cbn [on_disk with_disk].
  change ["CREST"; "parsed_data"; "v_" ++ v] with (parsed_path "CREST" version). split; [|split].
  - intros p I. rewrite D2. destruct (in_dec path_dec p (map (folder_of "CREST" version) ["heating"; "population"; "bulbs"; "climate"; "4_States"])) as [J|J]; [apply M1; exact J|]. rewrite M2 by exact J.
    unfold crest_folders in I. apply in_app_or in I as [I|I]; [|contradiction]. destruct (inside_dec (parsed_path "CREST" version) p) as [[r ->]|K].
    + destruct r as [|x t]; [rewrite app_nil_r; apply renew_at|]. cbn in I. destruct I as [I|[I|[I|[]]]]; discriminate.
    + rewrite renew_out by exact K. apply B1. exact I.
  - intros p [r ->] N. rewrite D2. rewrite M2 by (intros I; apply N; unfold crest_folders; apply in_or_app; right; exact I). destruct r as [|x t]; [|apply renew_in].
    exfalso. apply N. rewrite app_nil_r. unfold crest_folders. apply in_or_app. left. apply parsed_in.
  - intros p K N. rewrite D2. rewrite M2 by (intros I; apply N; unfold crest_folders; apply in_or_app; right; exact I). rewrite renew_out by exact K. apply B2. intros I. apply N. unfold crest_folders. apply in_or_app. left. exact I.
Qed.

(** The workbooks of versions 2.2 and 2.3.3 are downloaded when they are missing. *)
Theorem C199_download : forall w v s l b, ready "CREST" (crest_folders v) (look s) -> look s (crest_model v) = None ->
  (v = "2.2" /\ l = "https://repository.lboro.ac.uk/ndownloader/files/4969096" \/ v = "2.3.3" /\ l = "https://repository.lboro.ac.uk/ndownloader/files/22693271") ->
  serve w l = Page b ->
  exists s', crest_init w v false s = (s', None) /\ visited s' = l :: visited s /\ answers s' = answers s /\ asked s' = asked s /\
    look s' (crest_model v) = Some (File b) /\ (forall p, In p (crest_folders v) -> look s' p = Some Dir) /\
    (forall p, ~ In p (crest_folders v) -> p <> crest_model v -> look s' p = look s p).
Proof.
  intros w v s l b R F L S. destruct (crest_prepared w v s R) as (d & u & D & M & E). pose proof M as [A B]. pose proof (model_file v _ (incl_refl _)) as N.
  rewrite E, (crest_last_get w v s d u D) by (rewrite B by exact N; exact F).
  replace (url_of crest_urls v) with (Some l) by (destruct L as [[-> ->]|[-> ->]]; reflexivity). unfold fetch_to. rewrite S.
  destruct (write_does (crest_model v) b {| on_disk := d; answers := answers s; asked := asked s; visited := l :: visited s |} u) as (d' & E' & D'); [discriminate|exact D|rewrite B by exact N; rewrite F; discriminate|apply A; cbn; auto|].
  cbn [on_disk with_disk answers asked visited]. change (crest_file v) with (crest_model v). rewrite E'. eexists. split; [reflexivity|]. cbn [visited answers asked with_disk]. repeat (split; [reflexivity|]). unfold look in *. cbn [on_disk].
  split; [rewrite D'; apply put_same|]. split; intros p I; [|intros K]; rewrite D', put_other.
  - apply A. exact I.
  - intros ->. contradiction.
  - apply B. exact I.
  - exact K.
Qed.

(** Any other version without a workbook is a ValueError; its folders have been made
    nevertheless. *)
Theorem C199_unknown : forall w v s, ready "CREST" (crest_folders v) (look s) -> look s (crest_model v) = None -> v <> "2.2" -> v <> "2.3.3" ->
  exists s', crest_init w v false s = (s', Some BadValue) /\ quiet s s' /\ made (crest_folders v) (look s) (look s').
Proof.
  intros w v s R F N1 N2. destruct (crest_prepared w v s R) as (d & u & D & M & E). pose proof M as [A B].
  rewrite E, (crest_last_get w v s d u D) by (rewrite B by (apply model_file; apply incl_refl); exact F).
  replace (url_of crest_urls v) with (@None string).
  - eexists. split; [reflexivity|]. split; [repeat split|]. split; intros p I; unfold look; cbn [on_disk with_disk]; rewrite D; auto. apply B. exact I.
  - cbn [url_of crest_urls]. symmetry. apply not_eq_sym, String.eqb_neq in N1. apply not_eq_sym, String.eqb_neq in N2. rewrite N1, N2. reflexivity.
Qed.

(** A server that refuses or cannot be reached leaves no workbook. *)
Theorem C199_failed : forall w v s l e, ready "CREST" (crest_folders v) (look s) -> look s (crest_model v) = None ->
  (v = "2.2" /\ l = "https://repository.lboro.ac.uk/ndownloader/files/4969096" \/ v = "2.3.3" /\ l = "https://repository.lboro.ac.uk/ndownloader/files/22693271") ->
  (exists c, serve w l = Status c /\ e = HttpError c) \/ (serve w l = Unreachable /\ e = NoConnection) ->
  exists s', crest_init w v false s = (s', Some e) /\ made (crest_folders v) (look s) (look s').
Proof.
  intros w v s l e R F L S. destruct (crest_prepared w v s R) as (d & u & D & M & E). pose proof M as [A B].
  rewrite E, (crest_last_get w v s d u D) by (rewrite B by (apply model_file; apply incl_refl); exact F).
  replace (url_of crest_urls v) with (Some l) by (destruct L as [[-> ->]|[-> ->]]; reflexivity). unfold fetch_to.
  destruct S as [(c & -> & ->)|[-> ->]]; (eexists; split; [reflexivity|]; split; intros p I; unfold look; cbn [on_disk with_disk]; rewrite D; auto; apply B; exact I).
Qed.

(** Full claim: a workbook on the disk is a whole one.  When the connection is lost while it
    is read, the part that was received stays. *)
Theorem C199_cut : forall w v s l b, ready "CREST" (crest_folders v) (look s) -> look s (crest_model v) = None ->
  (v = "2.2" /\ l = "https://repository.lboro.ac.uk/ndownloader/files/4969096" \/ v = "2.3.3" /\ l = "https://repository.lboro.ac.uk/ndownloader/files/22693271") ->
  serve w l = Cut b ->
  exists s', crest_init w v false s = (s', Some ConnectionLost) /\ look s' (crest_model v) = Some (File b).
Proof.
  intros w v s l b R F L S. destruct (crest_prepared w v s R) as (d & u & D & M & E). pose proof M as [A B]. pose proof (model_file v _ (incl_refl _)) as N.
  rewrite E, (crest_last_get w v s d u D) by (rewrite B by exact N; exact F).
  replace (url_of crest_urls v) with (Some l) by (destruct L as [[-> ->]|[-> ->]]; reflexivity). unfold fetch_to. rewrite S.
  destruct (write_does (crest_model v) b {| on_disk := d; answers := answers s; asked := asked s; visited := l :: visited s |} u) as (d' & E' & D'); [discriminate|exact D|rewrite B by exact N; rewrite F; discriminate|apply A; cbn; auto|].
  cbn [on_disk with_disk answers asked visited]. change (crest_file v) with (crest_model v). unfold seq_. rewrite E'. eexists. split; [reflexivity|]. unfold look. cbn [on_disk with_disk]. rewrite D'. apply put_same.
Qed.

Definition crest_server (r : response) : world := {| serve := fun _ => r; unzip := fun _ => None |}.

Definition crest_bare : st := typing [(["CREST"], Dir)] [].

Example C199_example :
  let m := ["CREST"; "raw_data"; "CREST_Demand_Model_v2.2.xlsm"] in
  let (s1, e1) := crest_init (crest_server (Page "workbook")) "2.2" false crest_bare in
  let s1' := with_disk s1 ((["CREST"; "parsed_data"; "v_2.2"; "climate"; "c.npz"], File "1") :: on_disk s1) in
  let (s2, e2) := crest_init (crest_server Unreachable) "2.2" true s1' in
  let (s3, e3) := crest_init (crest_server Unreachable) "3" false s2 in
  (e1, look s1 m, look s1 ["CREST"; "parsed_data"; "v_2.2"; "4_States"], List.length (visited s1)) = (None, Some (File "workbook"), Some Dir, 1%nat) /\
  (e2, look s2 m, look s2 ["CREST"; "parsed_data"; "v_2.2"; "climate"], look s2 ["CREST"; "parsed_data"; "v_2.2"; "climate"; "c.npz"]) = (None, Some (File "workbook"), Some Dir, None) /\
  (e3, look s3 ["CREST"; "parsed_data"; "v_3"; "bulbs"], snd (crest_init (crest_server Unreachable) "2.3.3" false s3)) = (Some BadValue, Some Dir, Some NoConnection).
Proof. vm_compute. repeat split; reflexivity. Qed.

(** The next construction takes the part for the workbook. *)
Theorem C199_whole_refuted : exists s1 s2,
  crest_init (crest_server (Cut "work")) "2.2" false crest_bare = (s1, Some ConnectionLost) /\
  crest_init (crest_server (Page "workbook")) "2.2" false s1 = (s2, None) /\
  look s2 ["CREST"; "raw_data"; "CREST_Demand_Model_v2.2.xlsm"] = Some (File "work").
Proof. do 2 eexists. split; [vm_compute; reflexivity|]. split; vm_compute; reflexivity. Qed.

(** ** C200 *)

Definition tracebase_last (w : world) : act :=
  when (fun s => negb (isfile (on_disk s) tracebase_zip))
    (fetch_to w tracebase_url tracebase_zip ;; extract_all w tracebase_zip (raw_path "tracebase")).

Lemma raw_there s d u : sees d u -> u (raw_path "tracebase") = Some Dir -> make_missing_dir (raw_path "tracebase") (with_disk s d) = (with_disk s d, None).
Proof. intros D E. unfold make_missing_dir, when, isdir. cbn [on_disk with_disk]. rewrite D, E. reflexivity. Qed.

Lemma tracebase_prepared w f s : ready "tracebase" (data_folders "tracebase" (Some f)) (look s) ->
  exists d u, sees d u /\ made (data_folders "tracebase" (Some f)) (look s) u /\ tracebase_init w f false false s = tracebase_last w (with_disk s d).
Proof.
  intros R. destruct (dataset_init_does "tracebase" (Some f) s (look s) (fun p => eq_refl) R) as (d & E & D). exists d, (based "tracebase" (Some f) (look s)).
  split; [exact D|]. split; [apply based_made|]. unfold tracebase_init. cbn [orb]. unfold seq_ at 1. rewrite E. unfold seq_ at 1. rewrite (raw_there s d _ D (based_raw _ _ _)). reflexivity.
Qed.

(** The parsed data of one step size are erased, the rest is kept. *)
Definition only_lost (f : string) (v u : view) : Prop :=
  (forall p, In p (data_folders "tracebase" (Some f)) -> u p = Some Dir) /\
  (forall x t, u (["tracebase"; "parsed_data"; f] ++ x :: t)%list = None) /\
  (forall p, ~ In p (data_folders "tracebase" (Some f)) -> ~ inside ["tracebase"; "parsed_data"; f] p -> u p = v p).

Lemma tracebase_cleared f s : ready "tracebase" (data_folders "tracebase" (Some f)) (look s) ->
  exists d u, sees d u /\ only_lost f (look s) u /\
    dataset_init (Some "tracebase") (Some f) (Some (clear_base "tracebase" (Some f))) s = (with_disk s d, None).
Proof.
  intros R. destruct (dataset_init_clear "tracebase" (Some f) s (look s) (clear_base "tracebase" (Some f)) (renew (parsed_path "tracebase" (Some f)) (based "tracebase" (Some f) (look s))) (fun p => eq_refl) R) as (d & E & D).
  { intros d D. apply clear_version; [exact D|apply based_parsed|apply based_parsed0]. }
  exists d, (renew (parsed_path "tracebase" (Some f)) (based "tracebase" (Some f) (look s))). split; [exact D|]. split; [|exact E].
  destruct (based_made "tracebase" (Some f) (look s)) as [A B]. unfold only_lost. change ["tracebase"; "parsed_data"; f] with (parsed_path "tracebase" (Some f)). split; [|split].
  - intros p I. destruct (inside_dec (parsed_path "tracebase" (Some f)) p) as [[r ->]|K].
    + destruct r as [|x t]; [rewrite app_nil_r; apply renew_at|]. cbn in I. destruct I as [I|[I|[I|[]]]]; discriminate.
    + rewrite renew_out by exact K. apply A. exact I.
  - intros x t. apply renew_in.
  - intros p I K. rewrite renew_out by exact K. apply B. exact I.
Qed.

Lemma archive_elsewhere f : ~ In tracebase_archive (data_folders "tracebase" (Some f)).
Proof. cbn. intros [H|[H|[H|[]]]]; discriminate. Qed.

Lemma tracebase_last_kept w s d u b : sees d u -> u tracebase_archive = Some (File b) -> tracebase_last w (with_disk s d) = (with_disk s d, None).
Proof. intros D E. unfold tracebase_last, when, isfile. cbn [on_disk with_disk]. change tracebase_zip with tracebase_archive. rewrite D, E. reflexivity. Qed.

Lemma tracebase_last_get w s d u b ms : sees d u -> u tracebase_archive = None -> u ["tracebase"; "raw_data"] = Some Dir -> u ["tracebase"] = Some Dir ->
  serve w tracebase_url = Page b -> unzip w b = Some ms -> proper ms -> fits ["tracebase"; "raw_data"] ms (put tracebase_archive (File b) u) ->
  exists d' u', tracebase_last w (with_disk s d) = (asked_for (with_disk s d') tracebase_url, None) /\ sees d' u' /\
    unpacked ["tracebase"; "raw_data"] ms (put tracebase_archive (File b) u) u'.
Proof.
  intros D Z R T S U P F. unfold tracebase_last, when, isfile. cbn [on_disk with_disk]. change tracebase_zip with tracebase_archive. rewrite D, Z. cbn [negb]. unfold fetch_to, seq_. rewrite S.
  destruct (write_does tracebase_archive b {| on_disk := d; answers := answers s; asked := asked s; visited := tracebase_url :: visited s |} u) as (d1 & E1 & D1); [discriminate|exact D|rewrite Z; discriminate|exact R|].
  cbn [on_disk with_disk answers asked visited]. rewrite E1. unfold extract_all. cbn [on_disk with_disk]. rewrite D1, put_same, U.
  destruct (extract_does ["tracebase"; "raw_data"] ms ltac:(discriminate) (with_disk {| on_disk := d; answers := answers s; asked := asked s; visited := tracebase_url :: visited s |} d1) (put tracebase_archive (File b) u) P F D1) as (u' & (d2 & E2 & D2) & X & _).
  { rewrite put_other by discriminate. exact T. }
  exists d2, u'. split; [exact E2|]. split; [exact D2|exact X].
Qed.

(** With the archive at hand nothing is requested: the missing folders are made and nothing
    else changes. *)
Theorem C200_kept : forall w f s b, ready "tracebase" (data_folders "tracebase" (Some f)) (look s) -> look s tracebase_archive = Some (File b) ->
  exists s', tracebase_init w f false false s = (s', None) /\ quiet s s' /\ made (data_folders "tracebase" (Some f)) (look s) (look s').
Proof.
  intros w f s b R Z. destruct (tracebase_prepared w f s R) as (d & u & D & M & E). pose proof M as [A B]. rewrite E, (tracebase_last_kept w s d u b D) by (rewrite B by apply archive_elsewhere; exact Z).
  eexists. split; [reflexivity|]. split; [repeat split|]. split; intros p I; unfold look; cbn [on_disk with_disk]; rewrite D; auto. apply B. exact I.
Qed.

(** Clearing without an update erases the parsed data of this step size only, and requests
    nothing. *)
Theorem C200_clear : forall w f s b, ready "tracebase" (data_folders "tracebase" (Some f)) (look s) -> look s tracebase_archive = Some (File b) ->
  exists s', tracebase_init w f true false s = (s', None) /\ quiet s s' /\ only_lost f (look s) (look s').
Proof.
  intros w f s b R Z. destruct (tracebase_cleared f s R) as (d & u & D & O & E). pose proof O as (A & B & C). unfold tracebase_init. cbn [orb]. unfold seq_ at 1. rewrite E. unfold seq_ at 1.
  rewrite (raw_there s d u D) by (apply A; cbn; auto). unfold seq_ at 1. unfold skip at 1. fold (tracebase_last w).
  assert (Z' : u tracebase_archive = Some (File b)). { rewrite C; [exact Z|apply archive_elsewhere|intros [r H]; discriminate]. }
  rewrite (tracebase_last_kept w s d u b D Z'). eexists. split; [reflexivity|]. split; [repeat split|]. unfold look, only_lost in *. cbn [on_disk with_disk].
  split; [|split]; intros; rewrite D; auto.
Qed.

(** The first construction stores the archive and unpacks it among the raw data. *)
Theorem C200_first : forall w f s b ms, ready "tracebase" (data_folders "tracebase" (Some f)) (look s) -> look s tracebase_archive = None ->
  serve w tracebase_url = Page b -> unzip w b = Some ms -> proper ms ->
  fits ["tracebase"; "raw_data"] ms (fun p => if path_dec p tracebase_archive then Some (File b) else look s p) ->
  exists s', tracebase_init w f false false s = (s', None) /\ visited s' = tracebase_url :: visited s /\ answers s' = answers s /\ asked s' = asked s /\
    exists v, made (data_folders "tracebase" (Some f)) (look s) v /\
      unpacked ["tracebase"; "raw_data"] ms (fun p => if path_dec p tracebase_archive then Some (File b) else v p) (look s').
Proof.
  intros w f s b ms R Z S U P F. destruct (tracebase_prepared w f s R) as (d & u & D & M & E). pose proof M as [A B].
  destruct (tracebase_last_get w s d u b ms D) as (d' & u' & E' & D' & X); auto.
  - rewrite B by apply archive_elsewhere. exact Z.
  - apply A. cbn. auto.
  - eapply made_dir; [exact M|apply R].
  - destruct F as (F1 & F2 & F3).
    assert (G : forall q, free (fun p => if path_dec p tracebase_archive then Some (File b) else look s p) q -> free (put tracebase_archive (File b) u) q).
    { intros q G c. specialize (G c). cbv beta in G. unfold put. destruct (path_dec q tracebase_archive); [exact G|]. intros K.
      destruct (in_dec path_dec q (data_folders "tracebase" (Some f))) as [J|J]; [rewrite A in K by exact J; discriminate|rewrite B in K by exact J; contradiction]. }
    unfold put. split; [|split].
    + intros r c I. specialize (F1 r c I). destruct path_dec; [exact F1|]. destruct (in_dec path_dec (["tracebase"; "raw_data"] ++ r)%list (data_folders "tracebase" (Some f))) as [J|J]; [|rewrite B by exact J; exact F1].
      destruct P as (_ & P & _). specialize (P r (Some c) I). destruct r as [|x t]; [congruence|]. cbn in J. destruct J as [J|[J|[J|[]]]]; discriminate.
    + intros r I. apply G. apply F2. exact I.
    + intros r o x t I. apply G. eapply F3. exact I.
  - rewrite E, E'. eexists. split; [reflexivity|]. split; [reflexivity|]. split; [reflexivity|]. split; [reflexivity|]. exists u. split; [exact M|].
    unfold look, asked_for. cbn [on_disk with_disk]. destruct X as (X1 & X2 & X3 & X4). split; [|split; [|split]]; intros; rewrite D'; eauto.
Qed.

(** An update erases the parsed data of this step size, fetches the archive again and
    unpacks it over the raw data that are there. *)
Theorem C200_update : forall w f s b0 b ms, ready "tracebase" (data_folders "tracebase" (Some f)) (look s) -> look s tracebase_archive = Some (File b0) ->
  serve w tracebase_url = Page b -> unzip w b = Some ms -> proper ms ->
  fits ["tracebase"; "raw_data"] ms (fun p => if path_dec p tracebase_archive then Some (File b) else look s p) ->
  forall clear, exists s', tracebase_init w f clear true s = (s', None) /\ visited s' = tracebase_url :: visited s /\ answers s' = answers s /\ asked s' = asked s /\ exists v, only_lost f (look s) v /\ unpacked ["tracebase"; "raw_data"] ms (fun p => if path_dec p tracebase_archive then Some (File b) else v p) (look s').
Proof.
  intros w f s b0 b ms R Z S U P F clear. destruct (tracebase_cleared f s R) as (d & u & D & O & E). pose proof O as (A & B & C).
  assert (Z' : u tracebase_archive = Some (File b0)). { rewrite C; [exact Z|apply archive_elsewhere|intros [r H]; discriminate]. }
  destruct (remove_does tracebase_archive (with_disk s d) u b0 D Z') as (d1 & E1 & D1).
  assert (Q : forall p, put tracebase_archive (File b) (del tracebase_archive u) p = if path_dec p tracebase_archive then Some (File b) else u p).
  { intros p. unfold put, del. destruct (path_dec p tracebase_archive); reflexivity. }
  destruct (tracebase_last_get w s d1 (del tracebase_archive u) b ms D1) as (d' & u' & E' & D' & X); [| | |exact S|exact U|exact P| |].
  - unfold del. destruct path_dec; congruence.
  - unfold del. destruct path_dec; [discriminate|]. apply A. cbn. auto.
  - unfold del. destruct path_dec; [discriminate|]. rewrite C; [apply R| |intros [r H]; discriminate]. cbn. intros [H|[H|[H|[]]]]; discriminate.
  - destruct F as (F1 & F2 & F3).
    assert (G : forall r, r = [] \/ u (["tracebase"; "raw_data"] ++ r)%list = look s (["tracebase"; "raw_data"] ++ r)%list).
    { intros [|x t]; [left; reflexivity|right]. apply C; [|intros [r H]; discriminate]. cbn. intros [H|[H|[H|[]]]]; discriminate. }
    assert (G0 : u ["tracebase"; "raw_data"] = Some Dir) by (apply A; cbn; auto).
    assert (K : forall r, free (fun p => if path_dec p tracebase_archive then Some (File b) else look s p) (["tracebase"; "raw_data"] ++ r)%list ->
       free (put tracebase_archive (File b) (del tracebase_archive u)) (["tracebase"; "raw_data"] ++ r)%list).
    { intros r H c. rewrite Q. specialize (H c). cbv beta in H. destruct path_dec; [exact H|]. destruct (G r) as [-> | ->]; [cbn [app]; rewrite G0; discriminate|exact H]. }
    split; [|split].
    + intros r c I. rewrite Q. specialize (F1 r c I). cbv beta in F1. destruct path_dec; [exact F1|]. destruct (G r) as [-> | ->]; [|exact F1]. destruct P as (_ & P & _). exfalso. apply (P _ _ I). reflexivity.
    + intros r I. apply K. apply F2. exact I.
    + intros r o x t I. apply K. eapply F3. exact I.
  - unfold tracebase_init. rewrite orb_true_r. unfold seq_ at 1. rewrite E. unfold seq_ at 1. rewrite (raw_there s d u D) by (apply A; cbn; auto). unfold seq_ at 1. change tracebase_zip with tracebase_archive. rewrite E1.
    change (with_disk (with_disk s d) d1) with (with_disk s d1). change tracebase_archive with tracebase_zip. fold (tracebase_last w). rewrite E'. eexists. split; [reflexivity|]. split; [reflexivity|]. split; [reflexivity|]. split; [reflexivity|].
    exists u. split; [exact O|]. unfold look, asked_for. cbn [on_disk with_disk]. destruct X as (X1 & X2 & X3 & X4). split; [|split; [|split]]; intros; rewrite D'; eauto. rewrite X4 by assumption. apply Q.
Qed.

(** Full claim: an update can always be asked for, and the data are then those of the new
    archive.  Without an archive on the disk (as at first) it fails, after the parsed data of
    the step size have been erased. *)
Theorem C200_update_new : forall w f clear s, ready "tracebase" (data_folders "tracebase" (Some f)) (look s) -> look s tracebase_archive = None ->
  exists s', tracebase_init w f clear true s = (s', Some NoSuchFile) /\ quiet s s' /\ only_lost f (look s) (look s').
Proof.
  intros w f clear s R Z. destruct (tracebase_cleared f s R) as (d & u & D & O & E). pose proof O as (A & B & C).
  assert (Z' : u tracebase_archive = None). { rewrite C; [exact Z|apply archive_elsewhere|intros [r H]; discriminate]. }
  unfold tracebase_init. rewrite orb_true_r. unfold seq_ at 1. rewrite E. unfold seq_ at 1. rewrite (raw_there s d u D) by (apply A; cbn; auto). unfold seq_ at 1. unfold remove. cbn [on_disk with_disk].
  change tracebase_zip with tracebase_archive. rewrite D, Z'. eexists. split; [reflexivity|]. split; [repeat split|]. unfold look, only_lost in *. cbn [on_disk with_disk]. split; [|split]; intros; rewrite D; auto.
Qed.

Definition tracebase_server (r : response) : world := {| serve := fun _ => r; unzip := fun b => if String.eqb b "new" then Some [(["tracebase-master"; "x.csv"], Some "2")] else None |}.

Definition two_steps : st := typing
  [(["tracebase"], Dir); (["tracebase"; "raw_data"], Dir); (["tracebase"; "raw_data"; "raw_github.zip"], File "old");
   (["tracebase"; "raw_data"; "tracebase-master"], Dir); (["tracebase"; "raw_data"; "tracebase-master"; "x.csv"], File "1"); (["tracebase"; "raw_data"; "tracebase-master"; "gone.csv"], File "0");
   (["tracebase"; "parsed_data"], Dir); (["tracebase"; "parsed_data"; "60"], Dir); (["tracebase"; "parsed_data"; "60"; "p.npz"], File "1");
   (["tracebase"; "parsed_data"; "1"], Dir); (["tracebase"; "parsed_data"; "1"; "p.npz"], File "1")] [].

Example C200_example :
  let (s, e) := tracebase_init (tracebase_server (Page "new")) "60" false true two_steps in
  (e, look s ["tracebase"; "raw_data"; "raw_github.zip"], look s ["tracebase"; "raw_data"; "tracebase-master"; "x.csv"], look s ["tracebase"; "raw_data"; "tracebase-master"; "gone.csv"])
   = (None, Some (File "new"), Some (File "2"), Some (File "0")) /\
  (look s ["tracebase"; "parsed_data"; "60"; "p.npz"], look s ["tracebase"; "parsed_data"; "60"]) = (None, Some Dir).
Proof. vm_compute. repeat split; reflexivity. Qed.

(** After an update for one step size, the parsed data of another are still those of the
    old archive, and so are the raw files which the new archive does not have. *)
Theorem C200_stale_refuted : exists s s', tracebase_init (tracebase_server (Page "new")) "60" false true s = (s', None) /\
  look s' ["tracebase"; "parsed_data"; "1"; "p.npz"] = Some (File "1") /\ look s' ["tracebase"; "raw_data"; "tracebase-master"; "x.csv"] = Some (File "2") /\
  look s' ["tracebase"; "raw_data"; "tracebase-master"; "gone.csv"] = Some (File "0").
Proof. exists two_steps. eexists. split; [vm_compute; reflexivity|]. split; [vm_compute; reflexivity|]. split; vm_compute; reflexivity. Qed.

(** A connection lost during the download leaves a part of the archive: the next
    construction succeeds without any raw data. *)
Theorem C200_data_refuted : exists s s1 s2, tracebase_init (tracebase_server (Cut "ne")) "60" false false s = (s1, Some ConnectionLost) /\
  tracebase_init (tracebase_server (Page "new")) "60" false false s1 = (s2, None) /\
  look s2 ["tracebase"; "raw_data"; "raw_github.zip"] = Some (File "ne") /\ look s2 ["tracebase"; "raw_data"; "tracebase-master"] = None.
Proof. exists (typing [(["tracebase"], Dir)] []). do 2 eexists. split; [vm_compute; reflexivity|]. split; [vm_compute; reflexivity|]. split; vm_compute; reflexivity. Qed.

Print Assumptions C199_kept.
Print Assumptions C199_clear.
Print Assumptions C199_download.
Print Assumptions C199_unknown.
Print Assumptions C199_failed.
Print Assumptions C199_cut.
Print Assumptions C199_whole_refuted.
Print Assumptions C200_kept.
Print Assumptions C200_clear.
Print Assumptions C200_first.
Print Assumptions C200_update.
Print Assumptions C200_update_new.
Print Assumptions C200_stale_refuted.
Print Assumptions C200_data_refuted.
