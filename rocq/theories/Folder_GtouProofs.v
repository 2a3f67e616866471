(** * Proofs about the construction of the loader of the German time use survey. *)

From Coq Require Import String List ZArith Bool Lia.
From Verif Require Import Prelude Folder_Model Folder_Spec Folder_Proofs Folder_ZipProofs.
Import ListNotations.
Local Open Scope string_scope.

Local Opaque path_dec.

Lemma made_trans ps qs v u w : made ps v u -> made qs u w -> made (ps ++ qs)%list v w.
Proof.
  intros [A B] [C D]. split; intros p H.
  - destruct (in_dec path_dec p qs) as [I|I]; [apply C; exact I|]. rewrite D by exact I. apply A. apply in_app_or in H as [H|H]; [exact H|contradiction].
  - rewrite D by (intros I; apply H; apply in_or_app; auto). apply B. intros I. apply H. apply in_or_app. auto.
Qed.

Lemma made_set ps qs v u : made ps v u -> (forall p, In p ps <-> In p qs) -> made qs v u.
Proof. intros [A B] E. split; intros p H; [apply A; apply E; exact H|apply B; rewrite E; exact H]. Qed.

Lemma made_put p v : made [p] v (put p Dir v).
Proof. split; intros q H; [destruct H as [<-|[]]; apply put_same|]. apply put_other. intros ->. apply H. cbn. auto. Qed.

Lemma made_dir ps v u p : made ps v u -> v p = Some Dir -> u p = Some Dir.
Proof. intros [A B] E. destruct (in_dec path_dec p ps) as [I|I]; [apply A; exact I|rewrite B by exact I; exact E]. Qed.

Lemma made_free ps v u p : made ps v u -> free v p -> free u p.
Proof. intros [A B] E b. destruct (in_dec path_dec p ps) as [I|I]; [rewrite A by exact I; discriminate|rewrite B by exact I; apply E]. Qed.

Lemma made_ready n ps qs v u : made ps v u -> ready n qs v -> ready n qs u.
Proof. intros M [R F]. split; [eapply made_dir; eauto|]. intros p I. eapply made_free; eauto. Qed.

Lemma ready_incl n ps qs v : ready n qs v -> incl ps qs -> ready n ps v.
Proof. intros [R F] I. split; auto. Qed.

Lemma folder_parsed n version sub : folder_of n version sub = (parsed_path n version ++ [sub])%list.
Proof. destruct version; reflexivity. Qed.

Lemma sub_folder_does n version sub s v : sees (on_disk s) v -> v (parsed_path n version) = Some Dir -> free v (folder_of n version sub) ->
  does (sub_folder n version sub) s (put (folder_of n version sub) Dir v).
Proof.
  intros V P F. unfold sub_folder. rewrite folder_parsed in *. apply make_missing_dir_does; auto; [destruct (parsed_path n version); discriminate|].
  rewrite removelast_last. exact P.
Qed.

Lemma activity_folder_does n version a s v : sees (on_disk s) v -> v (parsed_path n version) = Some Dir -> free v (folder_of n version a) ->
  does (activity_folder n version a) s (put (folder_of n version a) Dir v).
Proof.
  intros V P F. unfold activity_folder. eapply does_seq with (v := v).
  - exists (on_disk s). split; [|exact V]. unfold make_missing_dir, when, isdir. rewrite V, P. cbn. destruct s; reflexivity.
  - intros d D. rewrite folder_parsed in *. apply make_missing_does; auto; [destruct (parsed_path n version); discriminate|]. rewrite removelast_last. exact P.
Qed.

Lemma parsed_in n version : In (parsed_path n version) (data_folders n version).
Proof. destruct version; cbn; auto. Qed.

(** ** Without clearing *)

Lemma population_does version a s v : sees (on_disk s) v -> ready gtou (gtou_folders version a) v ->
  exists u, does (gtou_population version a false) s u /\ made (data_folders gtou version ++ [folder_of gtou version "population"])%list v u.
Proof.
  intros V R. exists (put (folder_of gtou version "population") Dir (based gtou version v)). split.
  - unfold gtou_population. eapply does_seq; [apply dataset_init_does; [exact V|]|].
    + eapply ready_incl; [exact R|]. unfold gtou_folders. intros p I. apply in_or_app. auto.
    + intros d D. apply sub_folder_does; auto; [apply based_parsed|]. eapply made_free; [apply based_made|]. apply R. unfold gtou_folders. apply in_or_app. cbn. auto.
  - eapply made_trans; [apply based_made|apply made_put].
Qed.

Lemma prepared version a s v (k : act) : sees (on_disk s) v -> ready gtou (gtou_folders version a) v ->
  exists u, made (gtou_folders version a) v u /\
    (exists d, sees d u /\ (gtou_population version a false ;; activity_folder gtou version a ;; gtou_population version a false ;; k) s = k (with_disk s d)).
Proof.
  intros V R.
  destruct (population_does version a s v V R) as (u1 & (d1 & E1 & D1) & M1).
  assert (P1 : u1 (parsed_path gtou version) = Some Dir) by (destruct M1 as [A _]; apply A; apply in_or_app; left; apply parsed_in).
  destruct (activity_folder_does gtou version a (with_disk s d1) u1 D1 P1) as (d2 & E2 & D2).
  { eapply made_free; [exact M1|]. apply R. unfold gtou_folders. apply in_or_app. cbn. auto. }
  pose proof (made_trans _ _ _ _ _ M1 (made_put (folder_of gtou version a) u1)) as M2.
  destruct (population_does version a (with_disk s d2) _ D2 (made_ready _ _ _ _ _ M2 R)) as (u3 & (d3 & E3 & D3) & M3).
  pose proof (made_trans _ _ _ _ _ M2 M3) as M. exists u3. split.
  - eapply made_set; [exact M|]. intros p. unfold gtou_folders. change "GermanTOU" with gtou. rewrite !in_app_iff. cbn [In]. tauto.
  - exists d3. split; auto. unfold seq_ at 1. rewrite E1. unfold seq_ at 1. change (with_disk s d1) with (with_disk s d1) in E2. rewrite E2.
    unfold seq_. change (with_disk (with_disk s d1) d2) with (with_disk s d2). rewrite E3. reflexivity.
Qed.

(** ** The condition for a download *)

Lemma survey_spec d v : sees d v -> raw_file_exists d = true <-> survey v.
Proof.
  intros V. unfold raw_file_exists, survey_files, survey, raw_path, gtou, isfile. cbn [forallb app]. rewrite !V, !andb_true_iff. split.
  - intros (A & B & C & _).
    repeat split; match goal with |- exists b, v ?p = _ => destruct (v p) as [[|b]|]; try discriminate; eauto end.
  - intros ((b1 & ->) & (b2 & ->) & (b3 & ->)). auto.
Qed.

Lemma zip_spec d v a : sees d v -> isfile d (zip_path a) = true <-> zip_there a v.
Proof.
  intros V. unfold isfile, zip_there. rewrite V. change (zip_path a) with (stored_zip a). split.
  - destruct (v (stored_zip a)) as [[|b]|]; try discriminate. eauto.
  - intros (b & ->). reflexivity.
Qed.

Lemma no_download w version a d v s : sees d v -> survey v \/ zip_there a v ->
  when (fun s => negb (raw_file_exists (on_disk s)) && negb (isfile (on_disk s) (zip_path a))) (gtou_download w version a) (with_disk s d) = (with_disk s d, None).
Proof.
  intros V [H|H]; unfold when; cbn [on_disk with_disk].
  - apply (survey_spec _ _ V) in H. rewrite H. reflexivity.
  - apply (zip_spec _ _ _ V) in H. rewrite H. rewrite andb_false_r. reflexivity.
Qed.

Lemma goes_download w version a d v s : sees d v -> ~ survey v -> ~ zip_there a v ->
  when (fun s => negb (raw_file_exists (on_disk s)) && negb (isfile (on_disk s) (zip_path a))) (gtou_download w version a) (with_disk s d) = gtou_download w version a (with_disk s d).
Proof.
  intros V A B. unfold when. cbn [on_disk with_disk]. rewrite <- (survey_spec _ _ V) in A. rewrite <- (zip_spec _ _ _ V) in B.
  apply not_true_is_false in A, B. rewrite A, B. reflexivity.
Qed.

(** ** The download *)

Lemma folder_not_zip version a x t : stored_zip a <> (folder_of gtou version x ++ t)%list.
Proof. destruct version; cbn; discriminate. Qed.

Lemma data_not_zip version a : ~ In (stored_zip a) (gtou_folders version a).
Proof. destruct version; cbn; intros H; repeat destruct H as [H|H]; try discriminate; contradiction. Qed.

Lemma survey_made ps v u : made ps v u -> (forall p, In p ps -> ~ inside [gtou; "raw_data"] p \/ p = [gtou; "raw_data"]) -> (survey u <-> survey v).
Proof.
  intros [A B] H. unfold survey.
  assert (K : forall x, u [gtou; "raw_data"; x] = v [gtou; "raw_data"; x]).
  { intros x. apply B. intros I. destruct (H _ I) as [J|J]; [|discriminate]. apply J. exists [x]. reflexivity. }
  change "GermanTOU" with gtou. rewrite !K. tauto.
Qed.

Lemma gtou_folders_raw version a p : In p (gtou_folders version a) -> ~ inside [gtou; "raw_data"] p \/ p = [gtou; "raw_data"].
Proof.
  unfold gtou_folders. destruct version; cbn; intros H; repeat (destruct H as [<-|H]; [try (right; reflexivity); left; intros [r E]; discriminate|]); contradiction.
Qed.

Lemma zip_made ps v u a : made ps v u -> ~ In (stored_zip a) ps -> (zip_there a u <-> zip_there a v).
Proof. intros [_ B] H. unfold zip_there. rewrite (B _ H). tauto. Qed.

Definition asked_for (s : st) (url : string) : st := {| on_disk := on_disk s; answers := answers s; asked := asked s; visited := url :: visited s |}.

Lemma download_ok w version a s v b ms : sees (on_disk s) v -> serve w (gtou_url a) = Page b -> unzip w b = Some ms -> proper ms ->
  v (raw_path gtou) = Some Dir -> v (stored_zip a) <> Some Dir -> v (folder_of gtou version a) = Some Dir -> v (parsed_path gtou version) = Some Dir ->
  fits (folder_of gtou version a) ms v ->
  exists u d, gtou_download w version a s = (asked_for (with_disk s d) (gtou_url a), None) /\ sees d u /\
    u (stored_zip a) = Some (File b) /\ unpacked (folder_of gtou version a) ms (put (stored_zip a) (File b) v) u.
Proof.
  intros V S U P R Z F Q T. unfold gtou_download, fetch. rewrite S.
  set (s1 := {| on_disk := on_disk s; answers := answers s; asked := asked s; visited := gtou_url a :: visited s |}).
  destruct (write_does (stored_zip a) b s1 v) as (d1 & E1 & D1); [discriminate|exact V|exact Z|exact R|].
  unfold seq_. change (zip_path a) with (stored_zip a). rewrite E1. unfold extract_all. cbn [on_disk with_disk]. rewrite D1, put_same, U.
  destruct (extract_does (folder_of gtou version a) ms) with (s := with_disk s1 d1) (v := put (stored_zip a) (File b) v) as (u & (d2 & E2 & D2) & X & K); auto.
  - destruct version; discriminate.
  - assert (N : forall r, put (stored_zip a) (File b) v (folder_of gtou version a ++ r)%list = v (folder_of gtou version a ++ r)%list).
    { intros r. apply put_other. apply not_eq_sym. apply folder_not_zip. }
    destruct T as (T1 & T2 & T3). split; [|split].
    + intros r b' I. rewrite N. eapply T1; eauto.
    + intros r I b'. rewrite N. apply (T2 r I).
    + intros r o x t I b'. rewrite N. apply (T3 r o x t I).
  - rewrite folder_parsed, removelast_last. rewrite put_other; [exact Q|]. destruct version; discriminate.
  - exists u, d2. rewrite <- folder_parsed, E2. split; [reflexivity|]. split; [exact D2|]. split; [|exact X].
    destruct X as (_ & _ & _ & X4). rewrite X4; [apply put_same|]. intros r o t _. apply folder_not_zip.
Qed.

Lemma download_fails w version a s e : (forall b, serve w (gtou_url a) <> Page b) ->
  e = match serve w (gtou_url a) with Status c => if Z.eqb c 404 then NoSuchFile else HttpError c | Unreachable => NoConnection | _ => ConnectionLost end ->
  gtou_download w version a s = (asked_for s (gtou_url a), Some e).
Proof.
  intros N ->. unfold gtou_download, fetch. destruct (serve w (gtou_url a)) as [b|c| |b]; [exfalso; apply (N b); reflexivity|reflexivity..].
Qed.

Lemma download_bad w version a s v b : sees (on_disk s) v -> serve w (gtou_url a) = Page b -> unzip w b = None ->
  v (raw_path gtou) = Some Dir -> v (stored_zip a) <> Some Dir ->
  exists d, gtou_download w version a s = (asked_for (with_disk s d) (gtou_url a), Some BadZip) /\ sees d (put (stored_zip a) (File b) v).
Proof.
  intros V S U R Z. unfold gtou_download, fetch. rewrite S.
  set (s1 := {| on_disk := on_disk s; answers := answers s; asked := asked s; visited := gtou_url a :: visited s |}).
  destruct (write_does (stored_zip a) b s1 v) as (d1 & E1 & D1); [discriminate|exact V|exact Z|exact R|].
  unfold seq_. change (zip_path a) with (stored_zip a). rewrite E1. unfold extract_all. cbn [on_disk with_disk]. rewrite D1, put_same, U.
  exists d1. split; auto.
Qed.

(** ** With clearing *)

Definition cleared (version : option string) (a : string) (v u : view) : Prop :=
  (forall p, In p (gtou_folders version a) -> u p = Some Dir) /\
  (forall x t, u (folder_of gtou version a ++ x :: t)%list = None) /\
  u (stored_zip a) = None /\
  (forall p, ~ In p (gtou_folders version a) -> ~ inside (folder_of gtou version a) p -> p <> stored_zip a -> u p = v p).

Lemma cleared_trans version a v u w : cleared version a v u -> cleared version a u w -> cleared version a v w.
Proof.
  intros (A1 & A2 & A3 & A4) (B1 & B2 & B3 & B4). split; [exact B1|]. split; [exact B2|]. split; [exact B3|].
  intros p H1 H2 H3. rewrite B4, A4; auto.
Qed.

Lemma folders_inside version a p : In p (gtou_folders version a) -> inside (folder_of gtou version a) p -> p = folder_of gtou version a.
Proof.
  unfold gtou_folders. intros H [r ->]. apply in_app_or in H as [H|H].
  - destruct version; cbn in H; repeat destruct H as [H|H]; try discriminate; contradiction.
  - destruct r as [|x r]; [apply app_nil_r|]. exfalso. cbn in H. destruct version; cbn in H; destruct H as [H|[H|[]]]; discriminate.
Qed.

Lemma clear_does version a s v : sees (on_disk s) v -> v (folder_of gtou version a) = Some Dir -> v (parsed_path gtou version) = Some Dir -> v (stored_zip a) <> Some Dir ->
  exists u, does (gtou_clear version a) s u /\ u (folder_of gtou version a) = Some Dir /\ (forall x t, u (folder_of gtou version a ++ x :: t)%list = None) /\
    u (stored_zip a) = None /\ (forall p, ~ inside (folder_of gtou version a) p -> p <> stored_zip a -> u p = v p).
Proof.
  intros V F P Z. rewrite folder_parsed in *. unfold gtou_clear. set (f := (parsed_path gtou version ++ [a])%list) in *.
  destruct (renew_does (parsed_path gtou version) a s v V F P) as (d1 & E1 & D1). fold f in E1, D1.
  assert (N : ~ inside f (stored_zip a)). { intros [r E]. unfold f in E. rewrite <- folder_parsed in E. apply folder_not_zip in E. exact E. }
  assert (Zr : renew f v (stored_zip a) = v (stored_zip a)) by (apply renew_out; exact N).
  destruct (v (stored_zip a)) as [[|b]|] eqn:ZZ; [congruence| |].
  - destruct (remove_does (stored_zip a) (with_disk s d1) (renew f v) b D1 Zr) as (d2 & E2 & D2). exists (del (stored_zip a) (renew f v)). split; [|split; [|split; [|split]]].
    + exists d2. split; auto. unfold seq_ in *. destruct (rmtree f s) as [s1 [e|]]; [congruence|]. rewrite E1. unfold when, isfile. cbn [on_disk with_disk].
      change (zip_path a) with (stored_zip a). rewrite D1, Zr. exact E2.
    + unfold del. destruct path_dec as [E|_]; [exfalso; apply N; rewrite <- E; exists []; symmetry; apply app_nil_r|apply renew_at].
    + intros x t. unfold del. destruct path_dec as [E|_]; [reflexivity|apply renew_in].
    + unfold del. destruct path_dec; congruence.
    + intros p H1 H2. unfold del. destruct path_dec; [congruence|]. apply renew_out. exact H1.
  - exists (renew f v). split; [|split; [|split; [|split]]].
    + exists d1. split; auto. unfold seq_ in *. destruct (rmtree f s) as [s1 [e|]]; [congruence|]. rewrite E1. unfold when, isfile. cbn [on_disk with_disk].
      change (zip_path a) with (stored_zip a). rewrite D1, Zr. reflexivity.
    + apply renew_at.
    + intros x t. apply renew_in.
    + exact Zr.
    + intros p H1 _. apply renew_out. exact H1.
Qed.

Lemma population_clear version a s v : sees (on_disk s) v -> ready gtou (gtou_folders version a) v -> v (folder_of gtou version a) = Some Dir -> v (stored_zip a) <> Some Dir ->
  exists u, does (gtou_population version a true) s u /\ cleared version a v u.
Proof.
  intros V R F Z. pose proof (based_made gtou version v) as M.
  assert (F' : based gtou version v (folder_of gtou version a) = Some Dir) by (eapply made_dir; eauto).
  assert (NZ : ~ In (stored_zip a) (data_folders gtou version)).
  { intros I. apply (data_not_zip version a). unfold gtou_folders. apply in_or_app. left. exact I. }
  assert (Z' : based gtou version v (stored_zip a) <> Some Dir). { destruct M as [_ M]. rewrite M; auto. }
  assert (RD : ready gtou (data_folders gtou version) v). { eapply ready_incl; [exact R|]. unfold gtou_folders. intros p I. apply in_or_app. auto. }
  assert (X : exists u, does (dataset_init (Some gtou) version (Some (gtou_clear version a))) s u /\ u (folder_of gtou version a) = Some Dir /\
     (forall x t, u (folder_of gtou version a ++ x :: t)%list = None) /\ u (stored_zip a) = None /\
     (forall p, ~ inside (folder_of gtou version a) p -> p <> stored_zip a -> u p = based gtou version v p)).
  { set (b := based gtou version v) in *.
    exists (fun p => if path_dec p (stored_zip a) then None else renew (folder_of gtou version a) b p). split; [|split; [|split; [|split]]].
    - apply (dataset_init_clear gtou version s v); auto. intros d D.
      destruct (clear_does version a (with_disk s d) b D F' (based_parsed gtou version v) Z') as (u & C & C1 & C2 & C3 & C4). eapply does_ext; [exact C|].
      intros p. destruct (path_dec p (stored_zip a)) as [->|K]; [exact C3|]. destruct (inside_dec (folder_of gtou version a) p) as [[r ->]|I].
      + destruct r as [|x t]; [rewrite app_nil_r, C1, renew_at; reflexivity|rewrite C2, renew_in; reflexivity].
      + rewrite C4, renew_out; auto.
    - destruct path_dec as [E|_]; [exfalso; apply (folder_not_zip version a a []); rewrite app_nil_r; symmetry; exact E|apply renew_at].
    - intros x t. destruct path_dec; [reflexivity|apply renew_in].
    - destruct path_dec; congruence.
    - intros p I K. destruct path_dec; [congruence|]. apply renew_out. exact I. }
  destruct X as (u & D & U1 & U2 & U3 & U4).
  exists (put (folder_of gtou version "population") Dir u). split.
  - unfold gtou_population. eapply does_seq; [exact D|]. intros d Dd. apply sub_folder_does; auto.
    + rewrite U4; [apply based_parsed| |destruct version; discriminate]. rewrite folder_parsed. intros [r E]. eapply app_grow. rewrite <- app_assoc in E. exact E.
    + destruct (inside_dec (folder_of gtou version a) (folder_of gtou version "population")) as [[r E]|I].
      * rewrite E. destruct r as [|x t]; intros b; [rewrite app_nil_r, U1; discriminate|rewrite U2; discriminate].
      * intros b. rewrite U4; auto; [|destruct version; discriminate]. eapply made_free; [exact M|]. apply R. unfold gtou_folders. apply in_or_app. cbn. auto.
  - split; [|split; [|split]].
    + intros p I. unfold put. destruct path_dec as [->|K]; [reflexivity|]. destruct (inside_dec (folder_of gtou version a) p) as [[r ->]|J].
      * rewrite (folders_inside version a _ I (ex_intro _ r eq_refl)). exact U1.
      * rewrite U4; [|exact J|intros ->; apply (data_not_zip version a); exact I]. unfold gtou_folders in I. apply in_app_or in I as [I|[<-|[<-|[]]]].
        -- destruct M as [M _]. apply M. exact I.
        -- contradiction K. reflexivity.
        -- exfalso. apply J. exists []. symmetry. apply app_nil_r.
    + intros x t. rewrite put_other; [apply U2|]. rewrite !folder_parsed. rewrite <- app_assoc. intros E. apply app_inv_head in E. discriminate.
    + rewrite put_other; [exact U3|destruct version; discriminate].
    + intros p I J K. rewrite put_other.
      * rewrite U4 by auto. destruct M as [_ M]. apply M. intros H. apply I. unfold gtou_folders. apply in_or_app. auto.
      * intros ->. apply I. unfold gtou_folders. apply in_or_app. cbn. auto.
Qed.

Lemma prepared_clear version a s v (k : act) : sees (on_disk s) v -> ready gtou (gtou_folders version a) v -> v (folder_of gtou version a) = Some Dir -> v (stored_zip a) <> Some Dir ->
  exists u, cleared version a v u /\
    (exists d, sees d u /\ (gtou_population version a true ;; activity_folder gtou version a ;; gtou_population version a true ;; k) s = k (with_disk s d)).
Proof.
  intros V R F Z. destruct (population_clear version a s v V R F Z) as (u1 & (d1 & E1 & D1) & M1).
  assert (In1 : In (folder_of gtou version a) (gtou_folders version a)) by (unfold gtou_folders; apply in_or_app; cbn; auto).
  assert (In2 : In (parsed_path gtou version) (gtou_folders version a)) by (unfold gtou_folders; apply in_or_app; left; apply parsed_in).
  assert (F1 : u1 (folder_of gtou version a) = Some Dir) by (apply M1; exact In1).
  destruct (activity_folder_does gtou version a (with_disk s d1) u1 D1) as (d2 & E2 & D2'); [apply M1; exact In2|intros b; rewrite F1; discriminate|].
  assert (D2 : sees d2 u1). { intros p. rewrite D2'. apply put_id. exact F1. }
  assert (R1 : ready gtou (gtou_folders version a) u1).
  { split; [|intros p I b; destruct M1 as [M1 _]; rewrite M1 by exact I; discriminate]. destruct M1 as (_ & _ & _ & M). rewrite M; [apply R| | |discriminate].
    - destruct version; cbn; intros H; repeat destruct H as [H|H]; try discriminate; contradiction.
    - intros [r E]. destruct version; discriminate. }
  destruct (population_clear version a (with_disk s d2) u1 D2 R1 F1) as (u3 & (d3 & E3 & D3) & M3); [destruct M1 as (_ & _ & M & _); rewrite M; discriminate|].
  exists u3. split; [eapply cleared_trans; eauto|]. exists d3. split; auto. unfold seq_ at 1. rewrite E1. unfold seq_ at 1. rewrite E2.
  unfold seq_. change (with_disk (with_disk s d1) d2) with (with_disk s d2). rewrite E3. reflexivity.
Qed.

Lemma zip_not_csv a x : (a ++ ".zip")%string = x -> x <> "zve13_puf_hh.csv" /\ x <> "zve13_puf_takt.csv" /\ x <> "zve13_puf_pers.csv".
Proof.
  intros <-. repeat split; intros E;
    repeat (destruct a as [|? a]; [discriminate|]; cbn in E; injection E as _ E); destruct a; discriminate.
Qed.

Lemma cleared_survey version a v u : cleared version a v u -> (survey u <-> survey v).
Proof.
  intros (_ & _ & _ & C). unfold survey. change "GermanTOU" with gtou. destruct (zip_not_csv a _ eq_refl) as (A1 & A2 & A3).
  assert (K : forall x, x <> (a ++ ".zip")%string -> u [gtou; "raw_data"; x] = v [gtou; "raw_data"; x]).
  { intros x N. apply C.
    - intros I. destruct (gtou_folders_raw _ _ _ I) as [J|J]; [apply J; exists [x]; reflexivity|discriminate].
    - intros [r E]. destruct version; discriminate.
    - intros E. injection E. auto. }
  rewrite !K by auto. tauto.
Qed.
