(** * Specification: folders before and after the construction of a loader.

    A disk is seen as what stands at each path. *)

From Coq Require Import String List ZArith Bool.
From Verif Require Import Prelude Folder_Model.
Import ListNotations.
Local Open Scope string_scope.

Definition view : Type := path -> option node.

Definition look (s : st) : view := stat (on_disk s).

(** The path of something in a folder, or of the folder itself. *)
Definition inside (f p : path) : Prop := exists r, p = (f ++ r)%list.

(** No file is where a folder is wanted. *)
Definition free (v : view) (p : path) : Prop := forall b, v p <> Some (File b).

(** Only these folders are new. *)
Definition made (ps : list path) (v v' : view) : Prop :=
  (forall p, In p ps -> v' p = Some Dir) /\ (forall p, ~ In p ps -> v' p = v p).

(** The user was asked nothing and no server was contacted. *)
Definition quiet (s s' : st) : Prop :=
  answers s' = answers s /\ asked s' = asked s /\ visited s' = visited s.

(** The folders of a dataset and of one version of it. *)
Definition data_folders (name : string) (version : option string) : list path :=
  match version with
  | None => [[name; "parsed_data"]; [name; "raw_data"]]
  | Some v => [[name; "parsed_data"]; [name; "raw_data"]; [name; "parsed_data"; v]]
  end.

(** A folder for parsed data below them. *)
Definition folder_of (name : string) (version : option string) (sub : string) : path :=
  match version with
  | None => [name; "parsed_data"; sub]
  | Some v => [name; "parsed_data"; v; sub]
  end.

(** The folder of the dataset is there and no file stands where these folders go. *)
Definition ready (name : string) (ps : list path) (v : view) : Prop :=
  v [name] = Some Dir /\ forall p, In p ps -> free v p.

(** An archive whose members have different paths, none empty, where nothing is stored
    below a file. *)
Definition proper (ms : list (path * option string)) : Prop :=
  NoDup (map fst ms) /\
  (forall r o, In (r, o) ms -> r <> []) /\
  (forall r b r' o x t, In (r, Some b) ms -> In (r', o) ms -> r' <> (r ++ x :: t)%list).

(** What an archive puts in a folder: its files, its folders and the folders above its
    members; the rest is as in [v]. *)
Definition unpacked (root : path) (ms : list (path * option string)) (v v' : view) : Prop :=
  (forall r b, In (r, Some b) ms -> v' (root ++ r)%list = Some (File b)) /\
  (forall r, In (r, None) ms -> v' (root ++ r)%list = Some Dir) /\
  (forall r o x t, In ((r ++ x :: t)%list, o) ms -> v' (root ++ r)%list = Some Dir) /\
  (forall p, (forall r o t, In (r ++ t, o)%list ms -> p <> (root ++ r)%list) -> v' p = v p).

(** Nothing in the folder hinders the archive. *)
Definition fits (root : path) (ms : list (path * option string)) (v : view) : Prop :=
  (forall r b, In (r, Some b) ms -> v (root ++ r)%list <> Some Dir) /\
  (forall r, In (r, None) ms -> free v (root ++ r)%list) /\
  (forall r o x t, In ((r ++ x :: t)%list, o) ms -> free v (root ++ r)%list).

(** The three files of the survey. *)
Definition survey (v : view) : Prop :=
  (exists b, v ["GermanTOU"; "raw_data"; "zve13_puf_hh.csv"] = Some (File b)) /\
  (exists b, v ["GermanTOU"; "raw_data"; "zve13_puf_takt.csv"] = Some (File b)) /\
  (exists b, v ["GermanTOU"; "raw_data"; "zve13_puf_pers.csv"] = Some (File b)).

Definition stored_zip (activity : string) : path := ["GermanTOU"; "raw_data"; activity ++ ".zip"].

Definition zip_there (activity : string) (v : view) : Prop := exists b, v (stored_zip activity) = Some (File b).

(** All folders of a GTOU loader. *)
Definition gtou_folders (version : option string) (activity : string) : list path :=
  (data_folders "GermanTOU" version ++ [folder_of "GermanTOU" version "population"; folder_of "GermanTOU" version activity])%list.

Definition crest_folders (v : string) : list path :=
  let version := Some ("v_" ++ v) in
  (data_folders "CREST" version ++ map (folder_of "CREST" version) ["heating"; "population"; "bulbs"; "climate"; "4_States"])%list.

Definition crest_model (v : string) : path := ["CREST"; "raw_data"; "CREST_Demand_Model_v" ++ v ++ ".xlsm"].

Definition tracebase_archive : path := ["tracebase"; "raw_data"; "raw_github.zip"].
