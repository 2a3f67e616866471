(** * Model of the folders of the dataset loaders: their creation, their clearing and the
    downloads made while a loader is constructed.

    demod/datasets/base_loader.py:48-127 (DatasetLoader), 337-352, 747-758, 922-928,
    1092-1098 (sub-folders), demod/datasets/tou_loader.py:31-44 (LoaderTOU),
    demod/datasets/GermanTOU/loader.py:71-151 (GTOU),
    demod/datasets/CREST/loader.py:78-104 (Crest),
    demod/datasets/tracebase/loader.py:96-130 (Tracebase).

    A path is the list of its components below the folder of all datasets
    (DATASET_PATH); the disk is an association list from paths to nodes; the texts typed by
    the user and the answers of the servers are given.  Names of activities and versions
    are single components (no separator, no "..").  Rights, full disks and concurrent
    processes are not modelled.  What is done on the disk before an exception stays. *)

From Coq Require Import String List ZArith Bool.
From Verif Require Import Prelude.
Import ListNotations.
Local Open Scope string_scope.

Definition path : Type := list string.

Definition path_dec : forall p q : path, {p = q} + {p <> q} := list_eq_dec string_dec.

Inductive node : Type := Dir | File (content : string).

Definition disk : Type := list (path * node).

Fixpoint lookup (d : disk) (p : path) : option node :=
  match d with [] => None | (q, n) :: t => if path_dec q p then Some n else lookup t p end.

(** os.path.exists / isfile / isdir look at this: the folder of all datasets is there. *)
Definition stat (d : disk) (p : path) : option node := match p with [] => Some Dir | _ => lookup d p end.

Definition exists_ (d : disk) (p : path) : bool := match stat d p with Some _ => true | None => false end.
Definition isdir (d : disk) (p : path) : bool := match stat d p with Some Dir => true | _ => false end.
Definition isfile (d : disk) (p : path) : bool := match stat d p with Some (File _) => true | _ => false end.

(** p is f or below it. *)
Fixpoint under (f p : path) : bool :=
  match f, p with
  | [], _ => true
  | x :: f', y :: p' => (x =? y) && under f' p'
  | _ :: _, [] => false
  end.

(** The exceptions that come out: FileNotFoundError, FileExistsError, NotADirectoryError,
    IsADirectoryError, urllib's HTTPError with its code, URLError (no connection),
    a connection lost while reading, zipfile.BadZipFile, EOFError (no more input),
    ValueError. *)
Inductive trouble : Type :=
| NoSuchFile | FileThere | NotAFolder | IsAFolder
| HttpError (code : Z) | NoConnection | ConnectionLost | BadZip | EndOfInput | BadValue.

(** What a server does with a request: a whole page, an error code, nothing, or a part of
    the page before the connection is lost. *)
Inductive response : Type := Page (bytes : string) | Status (code : Z) | Unreachable | Cut (bytes : string).

(** The outside world: servers, and what a sequence of bytes is as a zip archive (the
    members in their order with their path; None for a folder). *)
Record world : Type := {
  serve : string -> response;
  unzip : string -> option (list (path * option string))
}.

(** The state: the disk, what the user will type, the number of questions asked so far and
    the addresses requested so far (latest first). *)
Record st : Type := { on_disk : disk; answers : list string; asked : nat; visited : list string }.

Definition act : Type := st -> st * option trouble.

Definition skip : act := fun s => (s, None).
Definition raise (e : trouble) : act := fun s => (s, Some e).
Definition seq_ (a b : act) : act := fun s => match a s with (s', None) => b s' | (s', Some e) => (s', Some e) end.
Definition when (c : st -> bool) (a : act) : act := fun s => if c s then a s else (s, None).
Notation "a ;; b" := (seq_ a b) (at level 61, right associativity).

Definition with_disk (s : st) (d : disk) : st :=
  {| on_disk := d; answers := answers s; asked := asked s; visited := visited s |}.

(** The folder a path is in must be a folder: FileNotFoundError / NotADirectoryError. *)
Definition in_folder (d : disk) (p : path) : option trouble :=
  match stat d (removelast p) with Some Dir => None | Some (File _) => Some NotAFolder | None => Some NoSuchFile end.

(** os.mkdir *)
Definition mkdir (p : path) : act := fun s =>
  let d := on_disk s in
  match stat d p with
  | Some _ => (s, Some FileThere)
  | None => match in_folder d p with Some e => (s, Some e) | None => (with_disk s ((p, Dir) :: d), None) end
  end.

Definition drop_below (p : path) (d : disk) : disk := filter (fun e => negb (under p (fst e))) d.

(** shutil.rmtree *)
Definition rmtree (p : path) : act := fun s =>
  match stat (on_disk s) p with
  | None => (s, Some NoSuchFile)
  | Some (File _) => (s, Some NotAFolder)
  | Some Dir => (with_disk s (drop_below p (on_disk s)), None)
  end.

(** os.remove *)
Definition remove (p : path) : act := fun s =>
  match stat (on_disk s) p with
  | None => (s, Some NoSuchFile)
  | Some Dir => (s, Some IsAFolder)
  | Some (File _) => (with_disk s (filter (fun e => if path_dec (fst e) p then false else true) (on_disk s)), None)
  end.

(** open(p, 'wb') and a write *)
Definition write (p : path) (bytes : string) : act := fun s =>
  let d := on_disk s in
  match stat d p with
  | Some Dir => (s, Some IsAFolder)
  | _ => match in_folder d p with Some e => (s, Some e) | None => (with_disk s ((p, File bytes) :: d), None) end
  end.

(** [if not os.path.exists(p): os.mkdir(p)]; with os.path.isdir a file of that name makes
    mkdir fail. *)
Definition make_missing (p : path) : act := when (fun s => negb (exists_ (on_disk s) p)) (mkdir p).
Definition make_missing_dir (p : path) : act := when (fun s => negb (isdir (on_disk s) p)) (mkdir p).

(** ** DatasetLoader *)

Definition raw_path (name : string) : path := [name; "raw_data"].

(** base_loader.py:86, 94-95 *)
Definition parsed_path (name : string) (version : option string) : path :=
  match version with None => [name; "parsed_data"] | Some v => [name; "parsed_data"; v] end.

(** The loop of _clear_parsed_data, base_loader.py:111-120: the answer that ends it, what
    is left to read, and the number of questions; None when the input ends. *)
Fixpoint ask (texts : list string) : option string * list string * nat :=
  match texts with
  | [] => (None, [], 1%nat)
  | t :: rest =>
    if (t =? "yes") || (t =? "no") then (Some t, rest, 1%nat)
    else let '(a, r, n) := ask rest in (a, r, S n)
  end.

(** DatasetLoader._clear_parsed_data, base_loader.py:106-127 *)
Definition clear_base (name : string) (version : option string) : act := fun s =>
  let erase := rmtree (parsed_path name version) ;; mkdir (parsed_path name version) in
  match version with
  | Some _ => erase s
  | None =>
    let '(a, rest, n) := ask (answers s) in
    let s' := {| on_disk := on_disk s; answers := rest; asked := (asked s + n)%nat; visited := visited s |} in
    match a with
    | None => (s', Some EndOfInput)
    | Some t => if t =? "no" then (s', None) else erase s'
    end
  end.

(** DatasetLoader.__init__, base_loader.py:48-104; a class without a DATASET_NAME is a
    ValueError (75-83); [clear] is the method _clear_parsed_data of the class. *)
Definition dataset_init (name : option string) (version : option string) (clear : option act) : act :=
  match name with
  | None => raise BadValue
  | Some n =>
    make_missing (parsed_path n None) ;;
    make_missing (raw_path n) ;;
    match version with None => skip | Some v => make_missing_dir (parsed_path n (Some v)) end ;;
    match clear with None => skip | Some c => c end
  end.

(** A sub-folder of the parsed data: PopulationLoader 'population' (base_loader.py:346-352),
    ClimateLoader 'climate' (747-758), LightingLoader 'bulbs' (922-928), HeatingLoader
    'heating' (1092-1098). *)
Definition sub_folder (name : string) (version : option string) (sub : string) : act :=
  make_missing_dir (parsed_path name version ++ [sub])%list.

(** LoaderTOU.__init__, tou_loader.py:31-44, after the call of the constructors above. *)
Definition activity_folder (name : string) (version : option string) (activity : string) : act :=
  make_missing_dir (parsed_path name version) ;;
  make_missing (parsed_path name version ++ [activity])%list.

(** ** Downloads *)

(** request.urlopen and response.read(): the bytes, or the exception. *)
Definition fetch (w : world) (url : string) (k : string -> act) : act := fun s =>
  let s' := {| on_disk := on_disk s; answers := answers s; asked := asked s; visited := url :: visited s |} in
  match serve w url with
  | Page b => k b s'
  | Status c => (s', Some (HttpError c))
  | Unreachable => (s', Some NoConnection)
  | Cut _ => (s', Some ConnectionLost)
  end.

(** request.urlopen, open(file, 'wb') and shutil.copyfileobj: what has been received is in
    the file when the connection is lost. *)
Definition fetch_to (w : world) (url : string) (p : path) : act := fun s =>
  let s' := {| on_disk := on_disk s; answers := answers s; asked := asked s; visited := url :: visited s |} in
  match serve w url with
  | Page b => write p b s'
  | Status c => (s', Some (HttpError c))
  | Unreachable => (s', Some NoConnection)
  | Cut b => (write p b ;; raise ConnectionLost) s'
  end.

(** os.makedirs(exist_ok) of the folders between [root] and [root ++ rel]. *)
Fixpoint make_way (root rel : path) : act :=
  make_missing root ;;
  match rel with
  | [] => skip
  | [_] => skip
  | x :: rest => make_way (root ++ [x])%list rest
  end.

(** zipfile.ZipFile._extract_member: the missing folders above, then the folder or the
    file. *)
Definition extract_one (root : path) (m : path * option string) : act :=
  make_way root (fst m) ;;
  match snd m with
  | None => make_missing_dir (root ++ fst m)%list
  | Some b => write (root ++ fst m)%list b
  end.

Fixpoint extract (root : path) (ms : list (path * option string)) : act :=
  match ms with [] => skip | m :: t => extract_one root m ;; extract root t end.

(** zipfile.ZipFile(file) and extractall(root) *)
Definition extract_all (w : world) (file root : path) : act := fun s =>
  match stat (on_disk s) file with
  | None => (s, Some NoSuchFile)
  | Some Dir => (s, Some IsAFolder)
  | Some (File b) => match unzip w b with None => (s, Some BadZip) | Some ms => extract root ms s end
  end.

(** ** GTOU *)

Definition gtou : string := "GermanTOU".

Definition zip_path (activity : string) : path := (raw_path gtou ++ [(activity ++ ".zip")%string])%list.

(** GTOU._clear_parsed_data, GermanTOU/loader.py:87-96 *)
Definition gtou_clear (version : option string) (activity : string) : act :=
  let folder := (parsed_path gtou version ++ [activity])%list in
  rmtree folder ;; mkdir folder ;;
  when (fun s => isfile (on_disk s) (zip_path activity)) (remove (zip_path activity)).

(** GTOU._raw_file_exists, GermanTOU/loader.py:98-105 *)
Definition survey_files : list path :=
  [raw_path gtou ++ ["zve13_puf_hh.csv"]; raw_path gtou ++ ["zve13_puf_takt.csv"]; raw_path gtou ++ ["zve13_puf_pers.csv"]]%list.

Definition raw_file_exists (d : disk) : bool := forallb (isfile d) survey_files.

Definition gtou_url (activity : string) : string :=
  "https://raw.githubusercontent.com/epfl-herus/demod/master/demod/datasets/GermanTOU/parsed_data/" ++ activity ++ ".zip".

(** GTOU._download_parsed_folder_github, GermanTOU/loader.py:122-151: a 404 becomes a
    FileNotFoundError. *)
Definition gtou_download (w : world) (version : option string) (activity : string) : act := fun s =>
  match fetch w (gtou_url activity) (fun b =>
      write (zip_path activity) b ;;
      extract_all w (zip_path activity) (parsed_path gtou version ++ [activity])%list) s with
  | (s', Some (HttpError c)) => (s', Some (if Z.eqb c 404 then NoSuchFile else HttpError c))
  | r => r
  end.

(** PopulationLoader.__init__ of a GTOU object *)
Definition gtou_population (version : option string) (activity : string) (clear : bool) : act :=
  dataset_init (Some gtou) version (if clear then Some (gtou_clear version activity) else None) ;;
  sub_folder gtou version "population".

(** GTOU.__init__, GermanTOU/loader.py:71-85: LoaderTOU.__init__ goes through
    PopulationLoader.__init__, which is then called again. *)
Definition gtou_init (w : world) (version : option string) (activity : string) (clear : bool) : act :=
  gtou_population version activity clear ;;
  activity_folder gtou version activity ;;
  gtou_population version activity clear ;;
  when (fun s => negb (raw_file_exists (on_disk s)) && negb (isfile (on_disk s) (zip_path activity)))
    (gtou_download w version activity).

(** ** Crest *)

Definition crest_urls : list (string * string) :=
  [("2.2", "https://repository.lboro.ac.uk/ndownloader/files/4969096");
   ("2.3.3", "https://repository.lboro.ac.uk/ndownloader/files/22693271")].

Fixpoint url_of (l : list (string * string)) (v : string) : option string :=
  match l with [] => None | (k, u) :: t => if k =? v then Some u else url_of t v end.

Definition crest_file (v : string) : path := (raw_path "CREST" ++ [("CREST_Demand_Model_v" ++ v ++ ".xlsm")%string])%list.

(** Crest.__init__, CREST/loader.py:78-104; the constructors of HeatingLoader,
    PopulationLoader, LightingLoader, ClimateLoader and LoaderTOU (activity type '4_States')
    run in this order. *)
Definition crest_init (w : world) (v : string) (clear : bool) : act :=
  let version := Some ("v_" ++ v) in
  dataset_init (Some "CREST") version (if clear then Some (clear_base "CREST" version) else None) ;;
  sub_folder "CREST" version "heating" ;;
  sub_folder "CREST" version "population" ;;
  sub_folder "CREST" version "bulbs" ;;
  sub_folder "CREST" version "climate" ;;
  activity_folder "CREST" version "4_States" ;;
  when (fun s => negb (isfile (on_disk s) (crest_file v)))
    (match url_of crest_urls v with
     | None => raise BadValue
     | Some u => fetch_to w u (crest_file v)
     end).

(** ** Tracebase *)

Definition tracebase_zip : path := (raw_path "tracebase" ++ ["raw_github.zip"])%list.
Definition tracebase_url : string := "https://github.com/areinhardt/tracebase/archive/refs/heads/master.zip".

(** Tracebase.__init__, tracebase/loader.py:96-130; [folder] is the name of the version
    with the step size, as in 'master_step_size_60_seconds'. *)
Definition tracebase_init (w : world) (folder : string) (clear update : bool) : act :=
  let version := Some folder in
  dataset_init (Some "tracebase") version (if clear || update then Some (clear_base "tracebase" version) else None) ;;
  make_missing_dir (raw_path "tracebase") ;;
  (if update then remove tracebase_zip else skip) ;;
  when (fun s => negb (isfile (on_disk s) tracebase_zip))
    (fetch_to w tracebase_url tracebase_zip ;;
     extract_all w tracebase_zip (raw_path "tracebase")).
