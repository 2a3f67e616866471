(** * Properties of the folders of the dataset loaders (C197, C198). *)

From Coq Require Import String List ZArith Bool Lia.
From Verif Require Import Prelude Folder_Model Folder_Spec Folder_Proofs Folder_ZipProofs Folder_GtouProofs.
Import ListNotations.
Local Open Scope string_scope.

(** ** C197 *)

(** A loader constructed without clearing makes its folders where they are missing and
    changes nothing else; nobody is asked. *)
Theorem C197_new : forall n version s, ready n (data_folders n version) (look s) ->
  exists s', dataset_init (Some n) version None s = (s', None) /\ quiet s s' /\ made (data_folders n version) (look s) (look s').
Proof.
  intros n version s R. destruct (dataset_init_does n version s (look s) (fun p => eq_refl) R) as (d & E & D).
  exists (with_disk s d). split; [exact E|]. split; [repeat split|]. destruct (based_made n version (look s)) as [A B].
  split; intros p H; unfold look; cbn [on_disk with_disk]; rewrite D; [apply A|apply B]; exact H.
Qed.

(** Clearing one version: its folder is there and empty, all that is elsewhere (the other
    versions, the raw data) is as before, and nobody is asked. *)
Theorem C197_version : forall n x s, ready n (data_folders n (Some x)) (look s) ->
  exists s', dataset_init (Some n) (Some x) (Some (clear_base n (Some x))) s = (s', None) /\ quiet s s' /\
    (forall p, In p (data_folders n (Some x)) -> look s' p = Some Dir) /\
    (forall y t, look s' ([n; "parsed_data"; x] ++ y :: t)%list = None) /\
    (forall p, ~ In p (data_folders n (Some x)) -> ~ inside [n; "parsed_data"; x] p -> look s' p = look s p).
Proof.
  intros n x s R. pose proof (based_made n (Some x) (look s)) as [A B].
  destruct (dataset_init_clear n (Some x) s (look s) (clear_base n (Some x)) (renew (parsed_path n (Some x)) (based n (Some x) (look s))) (fun p => eq_refl) R) as (d & E & D).
  { intros d D. apply clear_version; [exact D|apply based_parsed|apply based_parsed0]. }
  exists (with_disk s d). split; [exact E|]. split; [repeat split|]. unfold look in *. cbn [on_disk with_disk]. change [n; "parsed_data"; x] with (parsed_path n (Some x)). split; [|split].
  - intros p I. rewrite D. destruct (inside_dec (parsed_path n (Some x)) p) as [[r ->]|J].
    + destruct r as [|y t]; [rewrite app_nil_r; apply renew_at|]. cbn in I. destruct I as [I|[I|[I|[]]]]; discriminate.
    + rewrite renew_out by exact J. apply A. exact I.
  - intros y t. rewrite D. apply renew_in.
  - intros p I J. rewrite D, renew_out by exact J. apply B. exact I.
Qed.

Lemma dataset_then n version s v c : sees (on_disk s) v -> ready n (data_folders n version) v ->
  exists d, sees d (based n version v) /\ dataset_init (Some n) version (Some c) s = c (with_disk s d).
Proof.
  intros V R. destruct (dataset_init_does n version s v V R) as (d & E & D). exists d. split; auto. unfold dataset_init, seq_ in *.
  destruct (make_missing (parsed_path n None) s) as [s1 [e|]]; [discriminate|].
  destruct (make_missing (raw_path n) s1) as [s2 [e|]]; [discriminate|].
  destruct ((match version with None => skip | Some x => make_missing_dir (parsed_path n (Some x)) end) s2) as [s3 [e|]]; [discriminate|].
  injection E as ->. reflexivity.
Qed.

(** Without a version the user is asked until the answer is yes or no.  After a no nothing
    is erased. *)
Theorem C197_no : forall n s pre rest, ready n (data_folders n None) (look s) ->
  answers s = (pre ++ "no" :: rest)%list -> Forall (fun t => t <> "yes" /\ t <> "no") pre ->
  exists s', dataset_init (Some n) None (Some (clear_base n None)) s = (s', None) /\
    made (data_folders n None) (look s) (look s') /\ answers s' = rest /\ asked s' = (asked s + List.length pre + 1)%nat /\ visited s' = visited s.
Proof.
  intros n s pre rest R A F. destruct (dataset_then n None s (look s) (clear_base n None) (fun p => eq_refl) R) as (d & D & E). rewrite E.
  unfold clear_base. cbn [answers with_disk]. rewrite A, ask_answered by auto. change ("no" =? "no") with true. cbv iota.
  eexists. split; [reflexivity|]. cbn [answers asked visited on_disk with_disk]. split; [|split; [reflexivity|split; [lia|reflexivity]]].
  destruct (based_made n None (look s)) as [M1 M2]. split; intros p H; unfold look; cbn [on_disk]; rewrite D; [apply M1|apply M2]; exact H.
Qed.

(** After a yes the parsed data of all versions are gone; the raw data are not. *)
Theorem C197_yes : forall n s pre rest, ready n (data_folders n None) (look s) ->
  answers s = (pre ++ "yes" :: rest)%list -> Forall (fun t => t <> "yes" /\ t <> "no") pre ->
  exists s', dataset_init (Some n) None (Some (clear_base n None)) s = (s', None) /\
    (forall p, In p (data_folders n None) -> look s' p = Some Dir) /\
    (forall y t, look s' ([n; "parsed_data"] ++ y :: t)%list = None) /\
    (forall p, ~ In p (data_folders n None) -> ~ inside [n; "parsed_data"] p -> look s' p = look s p) /\
    answers s' = rest /\ asked s' = (asked s + List.length pre + 1)%nat /\ visited s' = visited s.
Proof.
  intros n s pre rest R A F. destruct (dataset_then n None s (look s) (clear_base n None) (fun p => eq_refl) R) as (d & D & E). rewrite E.
  destruct (based_made n None (look s)) as [M1 M2].
  destruct (clear_all n (with_disk s d) (based n None (look s)) pre rest D (based_parsed0 _ _ _) (based_name _ _ _ (proj1 R)) A F) as (d' & E' & D').
  rewrite E'. eexists. split; [reflexivity|]. unfold look. cbn [answers asked visited on_disk with_disk]. change [n; "parsed_data"] with (parsed_path n None). split; [|split; [|split]].
  - intros p I. rewrite D'. destruct (inside_dec (parsed_path n None) p) as [[r ->]|J].
    + destruct r as [|y t]; [rewrite app_nil_r; apply renew_at|]. cbn in I. destruct I as [I|[I|[]]]; discriminate.
    + rewrite renew_out by exact J. apply M1. exact I.
  - intros y t. rewrite D'. apply renew_in.
  - intros p I J. rewrite D', renew_out by exact J. apply M2. exact I.
  - repeat split. lia.
Qed.

(** When the input ends before an answer, the construction fails and nothing is erased. *)
Theorem C197_silent : forall n s, ready n (data_folders n None) (look s) -> Forall (fun t => t <> "yes" /\ t <> "no") (answers s) ->
  exists s', dataset_init (Some n) None (Some (clear_base n None)) s = (s', Some EndOfInput) /\ made (data_folders n None) (look s) (look s') /\ visited s' = visited s.
Proof.
  intros n s R F. destruct (dataset_then n None s (look s) (clear_base n None) (fun p => eq_refl) R) as (d & D & E). rewrite E.
  unfold clear_base. cbn [answers with_disk]. rewrite ask_silent by exact F. eexists. split; [reflexivity|]. split; [|reflexivity].
  destruct (based_made n None (look s)) as [M1 M2]. split; intros p H; unfold look; cbn [on_disk]; rewrite D; [apply M1|apply M2]; exact H.
Qed.

(** A class without a dataset name, and a name without a folder, are refused before
    anything is done. *)
Theorem C197_refused : forall version clear s,
  dataset_init None version clear s = (s, Some BadValue) /\
  (forall n, look s [n] = None -> look s [n; "parsed_data"] = None -> dataset_init (Some n) version clear s = (s, Some NoSuchFile)).
Proof.
  intros version clear s. split; [reflexivity|]. intros n A B. unfold look in *. unfold dataset_init, seq_, make_missing, when, exists_, parsed_path. rewrite B. cbn [negb].
  unfold mkdir, in_folder. rewrite B. change (removelast [n; "parsed_data"]) with [n]. rewrite A. reflexivity.
Qed.

(** Clearing the parsed data of a dataset with two versions: "maybe", then "no", then
    "yes", and clearing one version. *)
Definition two_versions : disk :=
  [(["D"], Dir); (["D"; "parsed_data"], Dir); (["D"; "parsed_data"; "v1"], Dir); (["D"; "parsed_data"; "v1"; "x.npz"], File "1");
   (["D"; "parsed_data"; "v2"], Dir); (["D"; "parsed_data"; "v2"; "x.npz"], File "2")].

Definition typing (d : disk) (l : list string) : st := {| on_disk := d; answers := l; asked := 0; visited := [] |}.

Example C197_example :
  let x v := ["D"; "parsed_data"; v; "x.npz"] in
  let (s1, e1) := dataset_init (Some "D") None (Some (clear_base "D" None)) (typing two_versions ["maybe"; "no"; "yes"]) in
  let (s2, e2) := dataset_init (Some "D") (Some "v1") (Some (clear_base "D" (Some "v1"))) s1 in
  let (s3, e3) := dataset_init (Some "D") None (Some (clear_base "D" None)) s2 in
  (e1, asked s1, answers s1, look s1 (x "v1"), look s1 ["D"; "raw_data"]) = (None, 2%nat, ["yes"], Some (File "1"), Some Dir) /\
  (e2, asked s2, look s2 (x "v1"), look s2 (x "v2"), look s2 ["D"; "parsed_data"; "v1"]) = (None, 2%nat, None, Some (File "2"), Some Dir) /\
  (e3, asked s3, look s3 (x "v2"), look s3 ["D"; "parsed_data"; "v2"], look s3 ["D"; "parsed_data"]) = (None, 3%nat, None, None, Some Dir).
Proof. vm_compute. repeat split; reflexivity. Qed.

(** ** C198 *)

(** With the files of the survey or the zip of the activity at hand, a construction without
    clearing makes the folders that are missing and does nothing else: no server is
    contacted and no file changes. *)
Theorem C198_kept : forall w version a s, ready "GermanTOU" (gtou_folders version a) (look s) -> survey (look s) \/ zip_there a (look s) ->
  exists s', gtou_init w version a false s = (s', None) /\ quiet s s' /\ made (gtou_folders version a) (look s) (look s').
Proof.
  intros w version a s R H.
  destruct (prepared version a s (look s) (when (fun s => negb (raw_file_exists (on_disk s)) && negb (isfile (on_disk s) (zip_path a))) (gtou_download w version a)) (fun p => eq_refl) R) as (u & M & d & D & E).
  unfold gtou_init. rewrite E. rewrite (no_download w version a d u s D).
  - eexists. split; [reflexivity|]. split; [repeat split|]. destruct M as [A B]. split; intros p I; unfold look; cbn [on_disk with_disk]; rewrite D; auto. apply B. exact I.
  - destruct H as [H|H]; [left|right].
    + eapply survey_made; [exact M|apply gtou_folders_raw|exact H].
    + eapply zip_made; [exact M|apply data_not_zip|exact H].
Qed.

(** Otherwise the archive hosted for the activity is stored and its members are put in the
    folder of the activity; everything else is as before. *)
Theorem C198_download : forall w version a s b ms, ready "GermanTOU" (gtou_folders version a) (look s) ->
  ~ survey (look s) -> ~ zip_there a (look s) -> look s (stored_zip a) <> Some Dir ->
  serve w (gtou_url a) = Page b -> unzip w b = Some ms -> proper ms -> fits (folder_of "GermanTOU" version a) ms (look s) ->
  exists s', gtou_init w version a false s = (s', None) /\ answers s' = answers s /\ asked s' = asked s /\ visited s' = gtou_url a :: visited s /\
    look s' (stored_zip a) = Some (File b) /\
    exists v, made (gtou_folders version a) (look s) v /\ unpacked (folder_of "GermanTOU" version a) ms (fun p => if path_dec p (stored_zip a) then Some (File b) else v p) (look s').
Proof.
  intros w version a s b ms R NS NZ ND S U P F.
  destruct (prepared version a s (look s) (when (fun s => negb (raw_file_exists (on_disk s)) && negb (isfile (on_disk s) (zip_path a))) (gtou_download w version a)) (fun p => eq_refl) R) as (u & M & d & D & E).
  unfold gtou_init. rewrite E. rewrite (goes_download w version a d u s D).
  - assert (I : forall p, In p (gtou_folders version a) -> u p = Some Dir) by apply M.
    destruct (download_ok w version a (with_disk s d) u b ms D S U P) as (u' & d' & E' & D' & Z' & X).
    + apply I. unfold gtou_folders. apply in_or_app. left. destruct version; cbn; auto.
    + destruct M as [_ M]. rewrite M by apply data_not_zip. exact ND.
    + apply I. unfold gtou_folders. apply in_or_app. cbn. auto.
    + apply I. unfold gtou_folders. apply in_or_app. left. apply parsed_in.
    + destruct F as (F1 & F2 & F3). split; [|split].
      * intros r b' J K. destruct (in_dec path_dec (folder_of gtou version a ++ r)%list (gtou_folders version a)) as [L|L].
        -- apply folders_inside in L; [|exists r; reflexivity]. assert (r = []). { rewrite <- (app_nil_r (folder_of gtou version a)) in L at 2. apply app_inv_head in L. exact L. } subst r.
           destruct P as (_ & P & _). apply (P [] (Some b') J). reflexivity.
        -- destruct M as [_ M]. rewrite (M _ L) in K. apply (F1 r b' J). exact K.
      * intros r J. eapply made_free; [exact M|]. apply (F2 r J).
      * intros r o x t J. eapply made_free; [exact M|]. apply (F3 r o x t J).
    + rewrite E'. eexists. split; [reflexivity|]. split; [reflexivity|]. split; [reflexivity|]. split; [reflexivity|]. unfold look in *. unfold asked_for. cbn [on_disk with_disk]. rewrite D'. split; [exact Z'|].
      exists u. split; [exact M|]. destruct X as (X1 & X2 & X3 & X4). split; [|split; [|split]]; intros; rewrite D'; eauto.
  - rewrite survey_made; [exact NS|exact M|apply gtou_folders_raw].
  - rewrite zip_made; [exact NZ|exact M|apply data_not_zip].
Qed.

(** When the server does not give the archive, the construction fails: a 404 is a
    FileNotFoundError, the others come out as they are.  No file is written. *)
Theorem C198_refused : forall w version a s, ready "GermanTOU" (gtou_folders version a) (look s) ->
  ~ survey (look s) -> ~ zip_there a (look s) -> (forall b, serve w (gtou_url a) <> Page b) ->
  exists s', gtou_init w version a false s = (s', Some (match serve w (gtou_url a) with
      | Status c => if Z.eqb c 404 then NoSuchFile else HttpError c | Unreachable => NoConnection | _ => ConnectionLost end)) /\
    made (gtou_folders version a) (look s) (look s') /\ visited s' = gtou_url a :: visited s.
Proof.
  intros w version a s R NS NZ N.
  destruct (prepared version a s (look s) (when (fun s => negb (raw_file_exists (on_disk s)) && negb (isfile (on_disk s) (zip_path a))) (gtou_download w version a)) (fun p => eq_refl) R) as (u & M & d & D & E).
  unfold gtou_init. rewrite E. rewrite (goes_download w version a d u s D).
  - rewrite (download_fails w version a _ _ N eq_refl). eexists. split; [reflexivity|]. split; [|reflexivity]. destruct M as [A B]. split; intros p I; unfold look; cbn [on_disk asked_for with_disk]; rewrite D; auto. apply B. exact I.
  - rewrite survey_made; [exact NS|exact M|apply gtou_folders_raw].
  - rewrite zip_made; [exact NZ|exact M|apply data_not_zip].
Qed.

(** Clearing erases the folder of the activity and its zip and nothing else, without any
    question; with the survey at hand the folder stays empty and nothing is requested. *)
Theorem C198_clear_survey : forall w version a s, ready "GermanTOU" (gtou_folders version a) (look s) ->
  look s (folder_of "GermanTOU" version a) = Some Dir -> look s (stored_zip a) <> Some Dir -> survey (look s) ->
  exists s', gtou_init w version a true s = (s', None) /\ quiet s s' /\
    (forall p, In p (gtou_folders version a) -> look s' p = Some Dir) /\
    (forall x t, look s' (folder_of "GermanTOU" version a ++ x :: t)%list = None) /\
    look s' (stored_zip a) = None /\
    (forall p, ~ In p (gtou_folders version a) -> ~ inside (folder_of "GermanTOU" version a) p -> p <> stored_zip a -> look s' p = look s p).
Proof.
  intros w version a s R F Z H.
  destruct (prepared_clear version a s (look s) (when (fun s => negb (raw_file_exists (on_disk s)) && negb (isfile (on_disk s) (zip_path a))) (gtou_download w version a)) (fun p => eq_refl) R F Z) as (u & M & d & D & E).
  unfold gtou_init. rewrite E. rewrite (no_download w version a d u s D).
  - eexists. split; [reflexivity|]. split; [repeat split|]. unfold look in *. cbn [on_disk with_disk]. destruct M as (A1 & A2 & A3 & A4).
    split; [|split; [|split]]; intros; rewrite D; auto.
  - left. rewrite cleared_survey; [exact H|exact M].
Qed.

(** Without the survey the archive is fetched again, whatever was there: afterwards the
    folder holds exactly the members of the archive, and all other files are as before. *)
Theorem C198_clear_download : forall w version a s b ms, ready "GermanTOU" (gtou_folders version a) (look s) ->
  look s (folder_of "GermanTOU" version a) = Some Dir -> look s (stored_zip a) <> Some Dir -> ~ survey (look s) ->
  serve w (gtou_url a) = Page b -> unzip w b = Some ms -> proper ms ->
  exists s', gtou_init w version a true s = (s', None) /\ answers s' = answers s /\ asked s' = asked s /\ visited s' = gtou_url a :: visited s /\
    (forall r c, In (r, Some c) ms -> look s' (folder_of "GermanTOU" version a ++ r)%list = Some (File c)) /\
    (forall r c, look s' (folder_of "GermanTOU" version a ++ r)%list = Some (File c) -> In (r, Some c) ms) /\
    look s' (stored_zip a) = Some (File b) /\
    (forall p, In p (gtou_folders version a) -> look s' p = Some Dir) /\
    (forall p, ~ In p (gtou_folders version a) -> ~ inside (folder_of "GermanTOU" version a) p -> p <> stored_zip a -> look s' p = look s p).
Proof.
  intros w version a s b ms R F Z NS S U P.
  destruct (prepared_clear version a s (look s) (when (fun s => negb (raw_file_exists (on_disk s)) && negb (isfile (on_disk s) (zip_path a))) (gtou_download w version a)) (fun p => eq_refl) R F Z) as (u & M & d & D & E).
  unfold gtou_init. rewrite E. rewrite (goes_download w version a d u s D).
  - pose proof M as (A1 & A2 & A3 & A4). change "GermanTOU" with gtou in *.
    assert (B1 : u (folder_of gtou version a) = Some Dir). { apply A1. unfold gtou_folders. apply in_or_app. cbn. auto. }
    destruct (download_ok w version a (with_disk s d) u b ms D S U P) as (u' & d' & E' & D' & Z' & (X1 & X2 & X3 & X4)).
    + apply A1. unfold gtou_folders. apply in_or_app. left. destruct version; cbn; auto.
    + rewrite A3. discriminate.
    + exact B1.
    + apply A1. unfold gtou_folders. apply in_or_app. left. apply parsed_in.
    + assert (Fr : forall r, free u (folder_of gtou version a ++ r)%list). { intros [|x t] c; [rewrite app_nil_r, B1; discriminate|rewrite A2; discriminate]. }
      split; [|split]; auto. intros r c I K. destruct r as [|x t]; [|rewrite A2 in K; discriminate]. destruct P as (_ & P & _). apply (P _ _ I). reflexivity.
    + rewrite E'. eexists. split; [reflexivity|]. split; [reflexivity|]. split; [reflexivity|]. split; [reflexivity|]. unfold look in *. unfold asked_for. cbn [on_disk with_disk].
      assert (O : forall p, ~ inside (folder_of gtou version a) p -> p <> stored_zip a -> u' p = u p).
      { intros p I K. rewrite X4; [apply put_other; exact K|]. intros r o t _ ->. apply I. exists r. reflexivity. }
      assert (B2 : u' (folder_of gtou version a) = Some Dir).
      { destruct ms as [|[r o] ms].
        - rewrite X4; [rewrite put_other; [exact B1|]|intros ? ? ? []]. intros K. apply (folder_not_zip version a a []). rewrite app_nil_r. auto.
        - assert (N : r <> []) by (destruct P as (_ & P & _); apply (P r o); cbn; auto). destruct r as [|x t]; [congruence|]. rewrite <- (app_nil_r (folder_of gtou version a)). apply (X3 [] o x t). cbn. auto. }
      split; [|split; [|split; [|split]]].
      * intros r c I. rewrite D'. apply X1. exact I.
      * intros r c. rewrite D'. intros K.
        assert (H : forall l : list (path * option string), (exists o t, In ((r ++ t)%list, o) l) \/ ~ (exists o t, In ((r ++ t)%list, o) l)).
        { intros l. induction l as [|[q o] l [(o' & t & I)|I]]; [right; intros (? & ? & [])|left; exists o', t; cbn; auto|]. destruct (inside_dec r q) as [[t ->]|J].
          - left. exists o, t. cbn. auto.
          - right. intros (o' & t & [L|L]); [injection L as -> ->; apply J; exists t; reflexivity|apply I; eauto]. }
        destruct (H ms) as [(o & t & I)|I].
        -- destruct t as [|x t]; [|rewrite (X3 r o x t I) in K; discriminate]. rewrite app_nil_r in I. destruct o as [c'|]; [rewrite (X1 r c' I) in K; congruence|rewrite (X2 r I) in K; discriminate].
        -- rewrite X4 in K.
           ++ rewrite put_other in K by (apply not_eq_sym; apply folder_not_zip). destruct r as [|x t]; [rewrite app_nil_r, B1 in K; discriminate|rewrite A2 in K; discriminate].
           ++ intros r' o t J L. apply app_inv_head in L. subst r'. apply I. eauto.
      * rewrite D'. exact Z'.
      * intros p I. rewrite D'. destruct (inside_dec (folder_of gtou version a) p) as [[r ->]|J].
        -- rewrite (folders_inside version a _ I (ex_intro _ r eq_refl)). exact B2.
        -- rewrite O; [apply A1; exact I|exact J|intros ->; apply (data_not_zip version a); exact I].
      * intros p I J K. rewrite D', O, A4; auto.
  - rewrite cleared_survey; [exact NS|exact M].
  - intros (c & K). destruct M as (_ & _ & M & _). congruence.
Qed.

(** Full claim: [clear_parsed_data] clears what is there, so it can be given in any case.
    For an activity or a version without a folder the construction fails instead, since the
    folder is erased before it is made. *)
Theorem C198_clear_new : forall w version a s, ready "GermanTOU" (gtou_folders version a) (look s) -> look s (folder_of "GermanTOU" version a) = None ->
  exists s', gtou_init w version a true s = (s', Some NoSuchFile) /\ quiet s s' /\ made (data_folders "GermanTOU" version) (look s) (look s').
Proof.
  intros w version a s R F. change "GermanTOU" with gtou in *.
  destruct (dataset_then gtou version s (look s) (gtou_clear version a) (fun p => eq_refl)) as (d & D & E).
  { eapply ready_incl; [exact R|]. unfold gtou_folders. intros p I. apply in_or_app. auto. }
  exists (with_disk s d). split; [|split; [repeat split|]].
  - assert (K : gtou_clear version a (with_disk s d) = (with_disk s d, Some NoSuchFile)).
    { unfold gtou_clear, seq_, rmtree. cbn [on_disk with_disk]. rewrite <- folder_parsed, D. destruct (based_made gtou version (look s)) as [_ M].
      rewrite M, F; [reflexivity|]. destruct version; cbn; intros H; repeat destruct H as [H|H]; try discriminate; contradiction. }
    unfold gtou_init, gtou_population. unfold seq_ at 1. unfold seq_ at 1. rewrite E, K. reflexivity.
  - destruct (based_made gtou version (look s)) as [M1 M2]. split; intros p I; unfold look; cbn [on_disk with_disk]; rewrite D; [apply M1|apply M2]; exact I.
Qed.

(** An archive that is not one is stored before it is found out: the construction fails,
    with the zip on the disk. *)
Theorem C198_broken : forall w version a s b, ready "GermanTOU" (gtou_folders version a) (look s) ->
  ~ survey (look s) -> ~ zip_there a (look s) -> look s (stored_zip a) <> Some Dir -> serve w (gtou_url a) = Page b -> unzip w b = None ->
  exists s', gtou_init w version a false s = (s', Some BadZip) /\ look s' (stored_zip a) = Some (File b) /\
    (forall p, In p (gtou_folders version a) -> look s' p = Some Dir) /\
    (forall p, ~ In p (gtou_folders version a) -> p <> stored_zip a -> look s' p = look s p).
Proof.
  intros w version a s b R NS NZ ND S U.
  destruct (prepared version a s (look s) (when (fun s => negb (raw_file_exists (on_disk s)) && negb (isfile (on_disk s) (zip_path a))) (gtou_download w version a)) (fun p => eq_refl) R) as (u & M & d & D & E).
  unfold gtou_init. rewrite E. rewrite (goes_download w version a d u s D).
  - pose proof M as [I O]. destruct (download_bad w version a (with_disk s d) u b D S U) as (d' & E' & D').
    + apply I. unfold gtou_folders. apply in_or_app. left. destruct version; cbn; auto.
    + rewrite O by apply data_not_zip. exact ND.
    + rewrite E'. eexists. split; [reflexivity|]. unfold look in *. unfold asked_for. cbn [on_disk with_disk]. split; [rewrite D'; apply put_same|]. split.
      * intros p J. rewrite D', put_other; [apply I; exact J|]. intros ->. apply (data_not_zip version a). exact J.
      * intros p J K. rewrite D', put_other by exact K. apply O. exact J.
  - rewrite survey_made; [exact NS|exact M|apply gtou_folders_raw].
  - rewrite zip_made; [exact NZ|exact M|apply data_not_zip].
Qed.

(** A server with one archive for the activity "act" and its contents. *)
Definition hosting : world :=
  {| serve := fun u => if String.eqb u (gtou_url "act") then Page "PK" else Status 404;
     unzip := fun b => if String.eqb b "PK" then Some [(["t.npz"], Some "42"); (["Stats"; "p.npz"], Some "7")] else None |}.

Definition offline : world := {| serve := fun _ => Unreachable; unzip := unzip hosting |}.
Definition wrong_page : world := {| serve := fun _ => Page "<html>"; unzip := unzip hosting |}.

Definition bare (d : disk) : st := typing ((["GermanTOU"], Dir) :: d) [].

(** A first construction, a second one offline, and a third one that clears. *)
Example C198_example :
  let t := ["GermanTOU"; "parsed_data"; "act"; "t.npz"] in
  let p := ["GermanTOU"; "parsed_data"; "act"; "Stats"; "p.npz"] in
  let old := ["GermanTOU"; "parsed_data"; "act"; "old.npz"] in
  let (s1, e1) := gtou_init hosting None "act" false (bare []) in
  let (s2, e2) := gtou_init offline None "act" false s1 in
  let (s3, e3) := gtou_init hosting None "act" true (with_disk s2 ((old, File "0") :: on_disk s2)) in
  (e1, look s1 t, look s1 p, visited s1) = (None, Some (File "42"), Some (File "7"), [gtou_url "act"]) /\
  (e2, look s2 t, visited s2) = (None, Some (File "42"), [gtou_url "act"]) /\
  (e3, look s3 t, look s3 old, visited s3, asked s3) = (None, Some (File "42"), None, [gtou_url "act"; gtou_url "act"], 0%nat) /\
  snd (gtou_init hosting None "other" false s3) = Some NoSuchFile /\
  snd (gtou_init hosting None "other" true s3) = Some NoSuchFile /\
  snd (gtou_init offline None "other" false s3) = Some NoConnection /\
  snd (gtou_init wrong_page None "other" false s3) = Some BadZip.
Proof. vm_compute. repeat split; reflexivity. Qed.

(** Claim: data that have been parsed already can be used without a connection, as the
    comment says ("Downloads parsed folder if data does not exist").  They cannot: only the
    survey and the zip are looked for. *)
Theorem C198_offline_refuted : exists s w, look s ["GermanTOU"; "parsed_data"; "act"; "t.npz"] = Some (File "42") /\
  ready "GermanTOU" (gtou_folders None "act") (look s) /\ snd (gtou_init w None "act" false s) = Some NoConnection.
Proof.
  exists (bare [(["GermanTOU"; "parsed_data"], Dir); (["GermanTOU"; "parsed_data"; "act"], Dir); (["GermanTOU"; "parsed_data"; "act"; "t.npz"], File "42")]), offline.
  split; [reflexivity|]. split; [|vm_compute; reflexivity]. split; [reflexivity|]. intros p I b. repeat (destruct I as [<-|I]; [vm_compute; discriminate|]). destruct I.
Qed.

(** Claim: after a construction that succeeds, without the survey, the folder of the
    activity holds the data.  It does not for a second version, nor after a download that
    failed once: the zip is there, so nothing is put in the folder. *)
Theorem C198_data_refuted : exists w w' s s1 s2 s3, 
  gtou_init w None "act" false s = (s1, None) /\ gtou_init w (Some "v2") "act" false s1 = (s2, None) /\
  look s2 ["GermanTOU"; "parsed_data"; "v2"; "act"] = Some Dir /\ (forall x t, look s2 (["GermanTOU"; "parsed_data"; "v2"; "act"] ++ x :: t)%list = None) /\
  gtou_init w None "act" false (fst (gtou_init w' None "act" false s)) = (s3, None) /\ snd (gtou_init w' None "act" false s) = Some BadZip /\
  look s3 ["GermanTOU"; "parsed_data"; "act"] = Some Dir /\ (forall x t, look s3 (["GermanTOU"; "parsed_data"; "act"] ++ x :: t)%list = None).
Proof.
  exists hosting, wrong_page, (bare []). do 3 eexists. split; [vm_compute; reflexivity|]. split; [vm_compute; reflexivity|].
  split; [vm_compute; reflexivity|]. split.
  { intros x t. unfold look. cbn [on_disk app stat]. cbn [lookup]. repeat (destruct path_dec as [E|_]; [discriminate E|]). reflexivity. }
  split; [vm_compute; reflexivity|]. split; [vm_compute; reflexivity|]. split; [vm_compute; reflexivity|].
  intros x t. unfold look. cbn [on_disk app stat]. cbn [lookup]. repeat (destruct path_dec as [E|_]; [discriminate E|]). reflexivity.
Qed.

Print Assumptions C197_new.
Print Assumptions C197_version.
Print Assumptions C197_no.
Print Assumptions C197_yes.
Print Assumptions C197_silent.
Print Assumptions C197_refused.
Print Assumptions C198_kept.
Print Assumptions C198_download.
Print Assumptions C198_refused.
Print Assumptions C198_clear_survey.
Print Assumptions C198_clear_download.
Print Assumptions C198_clear_new.
Print Assumptions C198_broken.
Print Assumptions C198_offline_refuted.
Print Assumptions C198_data_refuted.
