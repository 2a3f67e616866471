(** * Proofs about the folders of the dataset loaders. *)

From Coq Require Import String List ZArith Bool Lia.
From Verif Require Import Prelude Folder_Model Folder_Spec.
Import ListNotations.
Local Open Scope string_scope.

Local Opaque path_dec.

(** ** Views *)

Definition put (p : path) (n : node) (v : view) : view := fun q => if path_dec q p then Some n else v q.
Definition cut (p : path) (v : view) : view := fun q => if under p q then None else v q.
Definition del (p : path) (v : view) : view := fun q => if path_dec q p then None else v q.

Lemma put_same p n v : put p n v p = Some n.
Proof. unfold put. destruct (path_dec p p); congruence. Qed.

Lemma put_other p n v q : q <> p -> put p n v q = v q.
Proof. unfold put. destruct (path_dec q p); congruence. Qed.

Lemma under_app f r : under f (f ++ r)%list = true.
Proof. induction f as [|x f IH]; cbn; auto. rewrite String.eqb_refl. exact IH. Qed.

Lemma under_inside f p : under f p = true <-> inside f p.
Proof.
  split.
  - revert p. induction f as [|x f IH]; intros p H; cbn in *; [exists p; reflexivity|]. destruct p as [|y p]; [discriminate|].
    apply andb_true_iff in H as [E H]. apply String.eqb_eq in E as ->. destruct (IH p H) as [r ->]. exists r. reflexivity.
  - intros [r ->]. apply under_app.
Qed.

Lemma under_refl f : under f f = true.
Proof. rewrite under_inside. exists []. symmetry. apply app_nil_r. Qed.

Lemma under_short f x : under (f ++ [x])%list f = false.
Proof.
  destruct (under (f ++ [x])%list f) eqn:E; auto. apply under_inside in E as [r E]. apply (f_equal (@List.length string)) in E.
  rewrite !app_length in E. cbn in E. lia.
Qed.

Lemma cut_outside p v q : ~ inside p q -> cut p v q = v q.
Proof. unfold cut. intros H. destruct (under p q) eqn:E; auto. apply under_inside in E. contradiction. Qed.

Lemma cut_inside p v q : inside p q -> cut p v q = None.
Proof. unfold cut. intros H. apply under_inside in H. rewrite H. reflexivity. Qed.

(** ** What an action does to the disk *)

Definition sees (d : disk) (v : view) : Prop := forall p, stat d p = v p.

Definition does (a : act) (s : st) (v : view) : Prop := exists d, a s = (with_disk s d, None) /\ sees d v.

Lemma does_seq a b s v u : does a s v -> (forall d, sees d v -> does b (with_disk s d) u) -> does (a ;; b) s u.
Proof.
  intros (d & E & V) H. destruct (H d V) as (d' & E' & U). exists d'. split; auto. unfold seq_. rewrite E, E'. destruct s; reflexivity.
Qed.

Lemma does_seq' a b s v d' e : does a s v -> (forall d, sees d v -> b (with_disk s d) = (d', e)) -> (a ;; b) s = (d', e).
Proof. intros (d & E & V) H. unfold seq_. rewrite E. apply H. exact V. Qed.

Lemma does_skip s v : sees (on_disk s) v -> does skip s v.
Proof. intros V. exists (on_disk s). split; auto. destruct s; reflexivity. Qed.

Lemma does_ext a s v u : does a s v -> (forall p, v p = u p) -> does a s u.
Proof. intros (d & E & V) H. exists d. split; auto. intros p. rewrite V. apply H. Qed.

Lemma sees_root d v : sees d v -> v [] = Some Dir.
Proof. intros V. symmetry. apply (V []). Qed.

Lemma stat_cons q n d p : q <> [] -> stat ((q, n) :: d) p = put q n (stat d) p.
Proof.
  intros N. unfold put. destruct p as [|x p].
  - destruct (path_dec [] q); [congruence|reflexivity].
  - cbn. destruct (path_dec q (x :: p)); destruct (path_dec (x :: p) q); try congruence; reflexivity.
Qed.

Lemma lookup_filter (f : path -> bool) d p : lookup (filter (fun e => f (fst e)) d) p = if f p then lookup d p else None.
Proof.
  induction d as [|[q n] d IH]; cbn; [destruct (f p); reflexivity|]. destruct (f q) eqn:F; cbn.
  - destruct (path_dec q p); [subst; rewrite F; reflexivity|exact IH].
  - rewrite IH. destruct (path_dec q p); [subst; rewrite F; reflexivity|reflexivity].
Qed.

Lemma stat_drop p d q : p <> [] -> stat (drop_below p d) q = cut p (stat d) q.
Proof.
  intros N. unfold cut. destruct q as [|y q]; [destruct p; [congruence|reflexivity]|]. unfold stat, drop_below.
  rewrite (lookup_filter (fun x => negb (under p x))). destruct (under p (y :: q)); reflexivity.
Qed.

Lemma mkdir_does p s v : p <> [] -> sees (on_disk s) v -> v p = None -> v (removelast p) = Some Dir -> does (mkdir p) s (put p Dir v).
Proof.
  intros N V E F. exists ((p, Dir) :: on_disk s). unfold mkdir, in_folder. rewrite !V, E, F. split; auto.
  intros q. rewrite stat_cons by exact N. unfold put. destruct (path_dec q p); auto.
Qed.

Lemma put_id p n v q : v p = Some n -> put p n v q = v q.
Proof. intros E. unfold put. destruct (path_dec q p); congruence. Qed.

Lemma make_missing_does p s v : p <> [] -> sees (on_disk s) v -> free v p -> v (removelast p) = Some Dir -> does (make_missing p) s (put p Dir v).
Proof.
  intros N V E F. unfold does, make_missing, when, exists_. rewrite V. destruct (v p) as [[|b]|] eqn:H.
  - exists (on_disk s). split; [destruct s; reflexivity|]. intros q. rewrite V, put_id; auto.
  - exfalso. apply (E b). exact H.
  - cbn [negb]. apply mkdir_does; auto.
Qed.

Lemma make_missing_dir_does p s v : p <> [] -> sees (on_disk s) v -> free v p -> v (removelast p) = Some Dir -> does (make_missing_dir p) s (put p Dir v).
Proof.
  intros N V E F. unfold does, make_missing_dir, when, isdir. rewrite V. destruct (v p) as [[|b]|] eqn:H.
  - exists (on_disk s). split; [destruct s; reflexivity|]. intros q. rewrite V, put_id; auto.
  - exfalso. apply (E b). exact H.
  - cbn [negb]. apply mkdir_does; auto.
Qed.

Lemma rmtree_does p s v : p <> [] -> sees (on_disk s) v -> v p = Some Dir -> does (rmtree p) s (cut p v).
Proof.
  intros N V E. unfold does, rmtree. rewrite V, E. eexists. split; [reflexivity|]. intros q. rewrite stat_drop by exact N. unfold cut. rewrite V. reflexivity.
Qed.

Lemma remove_does p s v b : sees (on_disk s) v -> v p = Some (File b) -> does (remove p) s (del p v).
Proof.
  intros V E. unfold does, remove. rewrite V, E. eexists. split; [reflexivity|].
  assert (N : p <> []). { intros ->. rewrite (sees_root _ _ V) in E. discriminate. }
  intros q. unfold del. destruct q as [|y q].
  - destruct (path_dec [] p); [congruence|]. rewrite (sees_root _ _ V). reflexivity.
  - unfold stat. rewrite (lookup_filter (fun x => if path_dec x p then false else true)). rewrite <- V. destruct (path_dec (y :: q) p); reflexivity.
Qed.

Lemma write_does p bytes s v : p <> [] -> sees (on_disk s) v -> v p <> Some Dir -> v (removelast p) = Some Dir -> does (write p bytes) s (put p (File bytes) v).
Proof.
  intros N V E F. unfold does, write, in_folder. rewrite !V, F. destruct (v p) as [[|b]|] eqn:H; [congruence| |];
    (eexists; split; [reflexivity|]; intros q; rewrite stat_cons by exact N; unfold put; rewrite V; reflexivity).
Qed.

(** Erasing a folder and making it again. *)
Definition renew (p : path) (v : view) : view := put p Dir (cut p v).

Lemma renew_does p x s v : sees (on_disk s) v -> v (p ++ [x])%list = Some Dir -> v p = Some Dir ->
  does (rmtree (p ++ [x])%list ;; mkdir (p ++ [x])%list) s (renew (p ++ [x])%list v).
Proof.
  intros V E F. assert (N : (p ++ [x])%list <> []) by (destruct p; discriminate).
  eapply does_seq; [apply rmtree_does; eauto|]. intros d D. unfold renew. apply mkdir_does; auto.
  - apply cut_inside. exists []. symmetry. apply app_nil_r.
  - rewrite removelast_last. unfold cut. rewrite under_short. exact F.
Qed.

(** ** DatasetLoader *)

Lemma parsed_some n v : parsed_path n (Some v) = (parsed_path n None ++ [v])%list.
Proof. reflexivity. Qed.

(** The folders made before the clearing. *)
Definition based (n : string) (version : option string) (v : view) : view :=
  let u := put (raw_path n) Dir (put (parsed_path n None) Dir v) in
  match version with None => u | Some x => put (parsed_path n (Some x)) Dir u end.

Lemma free_put p n v q : free v q -> (q = p -> n = Dir) -> free (put p n v) q.
Proof. intros F H b. unfold put. destruct (path_dec q p); [rewrite (H e); discriminate|apply F]. Qed.

Lemma put_dir p v q : v q = Some Dir -> put p Dir v q = Some Dir.
Proof. unfold put. destruct (path_dec q p); congruence. Qed.

Lemma dataset_prefix n version s v (c : act) u : sees (on_disk s) v -> ready n (data_folders n version) v ->
  (forall d, sees d (based n version v) -> does c (with_disk s d) u) ->
  does (make_missing (parsed_path n None) ;; make_missing (raw_path n) ;;
        match version with None => skip | Some x => make_missing_dir (parsed_path n (Some x)) end ;; c) s u.
Proof.
  intros V [R F] C.
  eapply does_seq; [apply make_missing_does; [discriminate|exact V| |exact R]; apply F; destruct version; cbn; auto|]. intros d1 D1.
  eapply does_seq; [apply make_missing_does; [discriminate|exact D1| |cbn; apply put_dir; exact R]; apply free_put; [apply F; destruct version; cbn; auto|auto]|]. intros d2 D2.
  eapply does_seq with (v := based n version v).
  - destruct version as [x|].
    + unfold based. apply make_missing_dir_does; [discriminate|exact D2| |].
      * apply free_put; auto. apply free_put; auto. apply F. cbn. auto.
      * change (removelast (parsed_path n (Some x))) with (parsed_path n None). apply put_dir. apply put_same.
    + apply does_skip. exact D2.
  - intros d3 D3. apply C. exact D3.
Qed.

Lemma dataset_init_does n version s v : sees (on_disk s) v -> ready n (data_folders n version) v ->
  does (dataset_init (Some n) version None) s (based n version v).
Proof. intros V R. unfold dataset_init. eapply dataset_prefix; eauto. intros d D. apply does_skip. exact D. Qed.

Lemma dataset_init_clear n version s v c u : sees (on_disk s) v -> ready n (data_folders n version) v ->
  (forall d, sees d (based n version v) -> does c (with_disk s d) u) -> does (dataset_init (Some n) version (Some c)) s u.
Proof. intros V R C. unfold dataset_init. eapply dataset_prefix; eauto. Qed.

Lemma based_made n version v : made (data_folders n version) v (based n version v).
Proof.
  unfold based, put. destruct version as [x|]; cbn; split; intros p.
  - change (raw_path n) with [n; "raw_data"]. intros [<-|[<-|[<-|[]]]]; repeat (destruct path_dec; auto; try congruence).
  - intros N. unfold raw_path, parsed_path. repeat (destruct path_dec; [exfalso; subst p; apply N; cbn; auto|]). reflexivity.
  - change (raw_path n) with [n; "raw_data"]. intros [<-|[<-|[]]]; repeat (destruct path_dec; auto; try congruence).
  - intros N. unfold raw_path, parsed_path. repeat (destruct path_dec; [exfalso; subst p; apply N; cbn; auto|]). reflexivity.
Qed.

Lemma based_parsed n version v : based n version v (parsed_path n version) = Some Dir.
Proof. destruct (based_made n version v) as [M _]. apply M. destruct version; cbn; auto. Qed.

Lemma based_parsed0 n version v : based n version v (parsed_path n None) = Some Dir.
Proof. destruct (based_made n version v) as [M _]. apply M. destruct version; cbn; auto. Qed.

Lemma based_raw n version v : based n version v (raw_path n) = Some Dir.
Proof. destruct (based_made n version v) as [M _]. apply M. destruct version; cbn; auto. Qed.

Lemma based_name n version v : v [n] = Some Dir -> based n version v [n] = Some Dir.
Proof. intros R. destruct (based_made n version v) as [_ M]. rewrite M; [exact R|]. destruct version; cbn; intros [|[|[]]]; try discriminate; tauto. Qed.
