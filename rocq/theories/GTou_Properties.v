(** * Properties of the German time of use survey (C119-C133). *)

From Coq Require Import String List ZArith QArith Bool Arith Lia Lqa Sorted.
From Verif Require Import Prelude PreludeFacts SpecBase SpecBaseFacts Sparse_Model Sparse_Spec Parse_Model Parse_Spec StateMetric_Spec
  GTou_Model GTou_Spec GTou_Proofs GTou_LabelProofs GTou_OccProofs GTou_HouseProofs GTou_SparseProofs GTou_SparseTpmProofs GTou_StatProofs GTou_StartProofs GTou_DataProofs.
Import ListNotations.
Local Open Scope Z_scope.

(** Codes: 10 sleeping, 20 cooking, 30 without a name, 210 work, 920 on the way to
    work.  Two diaries of household 7 on day 1 and one of household 8 on day 2; the
    first person leaves at time 2. *)
Definition names : list (Z * string) := [(10, "sleeping"); (20, "cooking"); (30, "-"); (210, "work"); (920, "travel")]%string.
Definition tou : survey := mkSurvey 4
  [[10; 20; 920; 210]; [10; 20; 30; 10]; [20; 20; 30; 10]] [[10; 20; 920; 210]; [10; 20; 20; 10]; [20; 20; 10; 10]]
  [[true; true; false; false]; [true; true; true; true]; [true; true; true; true]] [[0; 1; 1; 1]; [0; 1; 1; 0]; [1; 1; 1; 0]] [7; 7; 8] [1; 1; 2].
Definition everybody := [true; true; true].
Definition tou_states : list (list string) := [["sleeping"; "cooking"; "away"; "away"]; ["sleeping"; "cooking"; "other"; "sleeping"]; ["cooking"; "cooking"; "other"; "sleeping"]]%string.
Definition qdict (r : result (list (string * list Q))) := match r with Ok d => map (fun x => (fst x, map Qred (snd x))) d | Err _ => [] end.
Definition entries (r : result tpm) := match r with Ok p => zip4 (t_times p) (t_from p) (t_to p) (map Qred (t_values p)) | Err _ => [] end.

(** ** C119: labelled diaries *)

(** Every entry of the diaries of the subgroup is the activity of its code, "away"
    for somebody who is not at home; the code without a name is shown as "other"
    if some label shown has five letters. *)
Theorem C119_states_partial : forall d sv mask n w, let raw := selected mask (primary sv) in let o := selected mask (occ sv) in
  sized n w raw -> sized n w o -> (0 < n)%nat -> (0 < w)%nat -> (forall p i c, diary raw p i c -> c = 0 \/ meaning d c <> None) ->
  exists st, get_states (Some d) sv mask = Ok st /\ sized n w st /\
    forall p i b c a, diary o p i b -> diary raw p i c -> activity d b c = Some a -> exists x, diary st p i x /\ (a <> "-"%string -> x = a) /\
      (a = "-"%string -> (exists p i b c a, diary o p i b /\ diary raw p i c /\ activity d b c = Some a /\ (5 <= String.length a)%nat) -> x = "other"%string).
Proof. exact get_states_main. Qed.
Print Assumptions C119_states_partial.

(** A code missing from the dictionary is an error, and so is an empty subgroup. *)
Theorem C119_unknown_code : forall d sv mask n w p i c, sized n w (selected mask (primary sv)) -> sized n w (selected mask (occ sv)) ->
  diary (selected mask (primary sv)) p i c -> c <> 0 -> meaning d c = None -> get_states (Some d) sv mask = Err KeyError.
Proof. exact get_states_unknown. Qed.
Print Assumptions C119_unknown_code.

Theorem C119_nobody : forall d sv mask, concat (selected mask (primary sv)) = [] -> get_states (Some d) sv mask = Err ValueError.
Proof. exact get_states_empty. Qed.
Print Assumptions C119_nobody.

(** A type of activities without a dictionary is refused. *)
Theorem C119_no_dictionary : forall sv mask, get_states None sv mask = Err ValueError.
Proof. reflexivity. Qed.
Print Assumptions C119_no_dictionary.

(** With short labels only, the name "other" is cut. *)
Theorem C119_other_refuted : exists d sv mask st c, get_states (Some d) sv mask = Ok st /\ diary (selected mask (primary sv)) 0 1 c /\
  diary (selected mask (occ sv)) 0 1 true /\ activity d true c = Some "-"%string /\ diary st 0 1 "othe"%string.
Proof.
  exists [(20, "cook"); (30, "-")]%string, (mkSurvey 2 [[20; 30]] [[20; 20]] [[true; true]] [[1; 1]] [1] [1]), [true], [["cook"; "othe"]]%string, 30.
  split; [vm_compute; reflexivity|]. split; [exists [20; 30]; split; reflexivity|]. split; [exists [true; true]; split; reflexivity|]. split; [reflexivity|]. exists ["cook"; "othe"]%string. split; reflexivity.
Qed.
Print Assumptions C119_other_refuted.

Example C119_example : get_states (Some names) tou everybody = Ok tou_states /\ get_states (Some []) tou everybody = Err KeyError /\ get_states None tou everybody = Err ValueError.
Proof. vm_compute. auto. Qed.

(** ** C120: secondary activities *)

(** The secondary activities have no influence on the labelled diaries and on the
    matrices, even when they are asked for. *)
Theorem C120_ignored : forall sv sv' mask, steps sv' = steps sv -> primary sv' = primary sv -> occ sv' = occ sv ->
  (forall d, get_states d sv' mask = get_states d sv mask) /\
  (forall add use d algo, get_tpms_activity add use d algo sv' mask = get_tpms_activity add use d algo sv mask).
Proof.
  intros sv sv' mask E1 E2 E3. split.
  - intros d. unfold get_states, labelled_states. rewrite E2, E3. reflexivity.
  - intros add use d algo. unfold get_tpms_activity, labelled_states. rewrite E1, E2, E3. reflexivity.
Qed.
Print Assumptions C120_ignored.

(** So "other" is not replaced by the secondary activity. *)
Theorem C120_replaced_refuted : exists d sv mask st c c', get_states (Some d) sv mask = Ok st /\
  diary (selected mask (primary sv)) 1 2 c /\ diary (selected mask (secondary sv)) 1 2 c' /\ diary (selected mask (occ sv)) 1 2 true /\
  meaning d c = Some "-"%string /\ meaning d c' = Some "cooking"%string /\ diary st 1 2 "other"%string.
Proof.
  exists names, tou, everybody, tou_states, 30, 20. split; [vm_compute; reflexivity|]. split; [exists [10; 20; 30; 10]; split; reflexivity|]. split; [exists [10; 20; 20; 10]; split; reflexivity|].
  split; [exists [true; true; true; true]; split; reflexivity|]. split; [reflexivity|]. split; [reflexivity|]. eexists. split; reflexivity.
Qed.
Print Assumptions C120_replaced_refuted.

Example C120_example : get_states (Some names) (mkSurvey 4 (primary tou) [] (occ tou) [] [] []) everybody = get_states (Some names) tou everybody.
Proof. reflexivity. Qed.

(** ** C121: matrices of activities *)

(** States are positions of labels that name the activities; one label per state
    when secondary activities are asked for; every activity of the dictionary has a
    label; the initial distribution and the matrices hold the observed
    frequencies. *)
Theorem C121_tpms_partial : forall (add use : bool) (d : list (Z * string)) algo sv mask n, let raw := selected mask (primary sv) in let o := selected mask (occ sv) in let w := steps sv in
  sized n w raw -> sized n w o -> (0 < n)%nat -> (0 < w)%nat -> algo <> AlgoUnknown -> (forall p i c, diary raw p i c -> (add = true /\ c = 0) \/ meaning d c <> None) ->
  exists tpm labels init st, get_tpms_activity add use d algo sv mask = Ok (tpm, labels, map Some init) /\ sized n w st /\
    (forall p i b c a, diary o p i b -> diary raw p i c -> (if add then activity d b c else meaning d c) = Some a ->
       exists k x, diary st p i k /\ at_ labels k x /\ (a <> "-"%string -> x = a)) /\
    (use = true -> forall p i k p' i' k' x, diary st p i k -> diary st p' i' k' -> at_ labels k x -> at_ labels k' x -> k = k') /\
    (forall k v, In (k, v) d -> In v labels \/ add = true) /\ (add = true -> forall c v, meaning d c = Some v -> In v labels \/ c = 0) /\
    length init = length labels /\ is_pdf init /\ (forall k q, at_ init k q -> q == q_of (persons_at (Nat.eqb k) st 0) / q_of n)%Q /\
    length tpm = w /\ (forall i m, at_ tpm i m -> let into := match algo, i with AlgoLast, O => (w - 1)%nat | _, _ => i end in frequencies (length labels) st (before w into) into m).
Proof.
  intros add use d algo sv mask n raw o w Sr So Hn Hw Ha K. apply (get_tpms_main add use d algo sv mask n Sr So Hn Hw Ha).
  intros p i c Hc. destruct (K p i c Hc) as [(-> & ->)|N]; [unfold away_dict; rewrite meaning_dset; discriminate|]. destruct add; [|exact N]. unfold away_dict. rewrite meaning_dset. destruct (c =? 0); [discriminate|exact N].
Qed.
Print Assumptions C121_tpms_partial.

(** Without the secondary activities two states can have the same label. *)
Theorem C121_labels_refuted : exists d sv mask tpm labels init k k', get_tpms_activity false false d AlgoNothing sv mask = Ok (tpm, labels, init) /\
  k <> k' /\ at_ labels k "other"%string /\ at_ labels k' "other"%string.
Proof.
  exists [(20, "other"); (30, "-"); (40, "reading")]%string, (mkSurvey 2 [[20; 30]; [40; 40]] [[20; 20]; [40; 40]] [[true; true]; [true; true]] [[1; 1]; [1; 1]] [1; 2] [1; 1]), [true; true].
  do 3 eexists. exists 0%nat, 1%nat. split; [vm_compute; reflexivity|]. split; [discriminate|]. split; reflexivity.
Qed.
Print Assumptions C121_labels_refuted.

Example C121_example : match get_tpms_activity true true names AlgoNothing tou everybody with
  | Ok (tpm, labels, init) => labels = ["away"; "cooking"; "other"; "sleeping"; "-"; "work"; "travel"]%string /\
      map (option_map Qred) init = map Some [0; 1 # 3; 0; 2 # 3; 0; 0; 0]%Q /\
      option_map (fun m => option_map (map Qred) (nth_error m 1)) (nth_error tpm 2) = Some (Some [1 # 3; 0; 2 # 3; 0; 0; 0; 0]%Q)
  | Err _ => False end.
Proof. vm_compute. auto. Qed.

(** ** C122: durations of activities *)

(** [num] gives different numbers to different activities; the runs are the
    maximal runs of every diary, going round the clock. *)
Theorem C122_durations : forall w states, (0 < w)%nat -> (forall r, In r states -> length r = w) -> (exists r a b, In r states /\ In a r /\ In b r /\ a <> b) ->
  exists dict num rss, parse_activity_duration w states = Ok dict /\
    (forall a b, In a (concat states) -> In b (concat states) -> num a = num b -> a = b) /\
    Forall2 runs_of (map (map num) states) rss /\ NoDup (map fst dict) /\ (forall a, In a (map fst dict) <-> In a (concat states)) /\
    forall a, In a (concat states) -> exists pdf, dget String.eqb dict a = Some pdf /\ is_pdf pdf /\ (length pdf <= S w)%nat /\ forall d q, at_ pdf d q ->
      let ds := durations_of (num a) (concat rss) in (q == q_of (length (filter (Nat.eqb d) ds)) / q_of (length ds) /\ (d = 0%nat -> q == 0))%Q.
Proof. exact duration_main. Qed.
Print Assumptions C122_durations.

Example C122_example : qdict (parse_activity_duration 4 tou_states) =
  [("away", [0; 0; 1]); ("cooking", [0; 2 # 3; 1 # 3]); ("other", [0; 1]); ("sleeping", [0; 2 # 3; 1 # 3])]%string%Q /\
  parse_activity_duration 2 [["cooking"; "cooking"]]%string = Err IndexError.
Proof. vm_compute. auto. Qed.

(** ** C123: starts per day *)

(** Entry [j] above 0 is the number of households and days that start the activity
    exactly [j] times, divided by the number of diaries. *)
Theorem C123_starts_partial : forall n w states hh ds, sized n w states -> (0 < n)%nat -> (0 < w)%nat -> length hh = n -> length ds = n ->
  (forall h, In h hh -> 0 <= h) -> (forall d, In d ds -> 0 <= d < 4) ->
  exists dict, parse_daily_activity_starts w states hh ds = Ok dict /\
    (forall a, a <> "active_occupancy"%string -> (dget String.eqb dict a = None <-> forall i p old, ~ changes w states i p a old)) /\
    (forall a pdf, a <> "active_occupancy"%string -> dget String.eqb dict a = Some pdf -> forall j, (0 < j)%nat ->
       exists l, household_list (fun h d => starts_on w states hh ds (fun b => b = a) h d j) l /\ (nth j pdf 0 == q_of (length l) / q_of n)%Q) /\
    (exists pdf, dget String.eqb dict "active_occupancy"%string = Some pdf /\ forall j, (0 < j)%nat ->
       exists l, household_list (fun h d => starts_on w states hh ds (fun b => b = "sleeping" \/ b = "away")%string h d j) l /\ (nth j pdf 0 == q_of (length l) / q_of n)%Q).
Proof. exact starts_main. Qed.
Print Assumptions C123_starts_partial.

(** A list of households or of days that ends before a diary in which something
    changes is refused. *)
Theorem C123_short : forall n w states hh ds i p new old, sized n w states -> (0 < w)%nat -> changes w states i p new old ->
  (length hh <= p)%nat \/ (length ds <= p)%nat -> parse_daily_activity_starts w states hh ds = Err IndexError.
Proof. exact starts_short. Qed.
Print Assumptions C123_short.

(** It is no distribution: entry 0 counts numbers of households that do not exist. *)
Theorem C123_pdf_refuted : exists w states hh ds dict pdf, parse_daily_activity_starts w states hh ds = Ok dict /\
  dget String.eqb dict "away"%string = Some pdf /\ (1 < nth 0 pdf 0)%Q /\ ~ is_pdf pdf.
Proof.
  exists 4%nat, tou_states, [7; 7; 8], [1; 1; 2]. do 2 eexists. split; [vm_compute; reflexivity|]. split; [reflexivity|]. split; [reflexivity|]. intros (_ & H). vm_compute in H. discriminate.
Qed.
Print Assumptions C123_pdf_refuted.

(** The starts of "active_occupancy" are counted when somebody falls asleep or
    leaves instead of waking up or coming back: here the only person becomes active
    once, at time 1, but two starts are counted. *)
Theorem C123_wake_up_refuted : exists w states dict pdf, parse_daily_activity_starts w states [0] [0] = Ok dict /\
  dget String.eqb dict "active_occupancy"%string = Some pdf /\ (nth 1 pdf 0 == 0)%Q /\ (nth 2 pdf 0 == 1)%Q /\
  (forall i old new, changes w states i 0 new old -> (old = "sleeping" \/ old = "away")%string -> new <> "sleeping"%string -> new <> "away"%string -> i = 1%nat).
Proof.
  exists 3%nat, [["sleeping"; "cooking"; "away"]]%string. do 2 eexists. split; [vm_compute; reflexivity|]. split; [reflexivity|]. split; [reflexivity|]. split; [reflexivity|].
  intros i old new (((r & Hr & Hi) & (r' & Hr' & Ho)) & _) O N1 N2. injection Hr as <-. injection Hr' as <-. destruct i as [|[|[|i]]]; cbn in Hi; [|reflexivity| |destruct i; discriminate]; injection Hi as <-; congruence.
Qed.
Print Assumptions C123_wake_up_refuted.

Example C123_example : qdict (parse_daily_activity_starts 4 tou_states [7; 7; 8] [1; 1; 2]) =
  [("away", [29 # 3; 1 # 3]); ("cooking", [11; 1 # 3; 1 # 3]); ("other", [11; 2 # 3]); ("sleeping", [11; 1 # 3; 1 # 3]); ("active_occupancy", [11; 1 # 3; 0; 1 # 3])]%string%Q.
Proof. vm_compute. reflexivity. Qed.

(** ** C124: shares of activities *)

Theorem C124_shares : forall w states, (forall r, In r states -> length r = w) -> states <> [] -> In "away"%string (concat states) -> In "sleeping"%string (concat states) -> ~ In "active_occupancy"%string (concat states) ->
  exists dict, parse_activity_probabilities w states = Ok dict /\
    (forall a, In a (concat states) -> exists l, dget String.eqb dict a = Some l /\ length l = w /\ forall i q, at_ l i q -> q == q_of (persons_at (String.eqb a) states i) / q_of (length states))%Q /\
    (exists l, dget String.eqb dict "active_occupancy"%string = Some l /\ length l = w /\
       forall i q, at_ l i q -> q == q_of (persons_at (fun a => negb (String.eqb a "away" || String.eqb a "sleeping")) states i) / q_of (length states))%Q /\
    (forall i labels, (i < w)%nat -> NoDup labels -> (forall a, In a labels <-> In a (concat states)) ->
       total (map (fun a => match dget String.eqb dict a with Some l => nth i l 0 | None => 0 end) labels) == 1)%Q.
Proof. exact probabilities_main. Qed.
Print Assumptions C124_shares.

(** If nobody is away or nobody sleeps there is no result. *)
Theorem C124_missing : forall w states, ~ In "away"%string (concat states) \/ ~ In "sleeping"%string (concat states) -> parse_activity_probabilities w states = Err KeyError.
Proof. exact probabilities_missing. Qed.
Print Assumptions C124_missing.

Example C124_example : qdict (parse_activity_probabilities 4 tou_states) =
  [("away", [0; 0; 1 # 3; 1 # 3]); ("cooking", [1 # 3; 1; 0; 0]); ("other", [0; 0; 2 # 3; 0]); ("sleeping", [2 # 3; 0; 0; 2 # 3]); ("active_occupancy", [1 # 3; 1; 2 # 3; 0])]%string%Q.
Proof. vm_compute. reflexivity. Qed.

(** ** C125: occupancy from travels *)

(** Before the first travel the answer about the start decides, from the first to
    the last travel the person is out, after the last travel the answer about the
    end decides. *)
Theorem C125_occupancy_partial : forall prim sec initial final d n w, sized n w prim -> sized n w sec -> length initial = n -> length final = n -> (0 < n)%nat -> (0 < w)%nat ->
  (forall p i c, diary prim p i c -> meaning d c <> None) -> (forall p i c, diary sec p i c -> meaning d c <> None) ->
  exists o, states_to_occupancy prim sec initial final d = Ok o /\ sized n w o /\ forall p ps ss a z i b, at_ prim p ps -> at_ sec p ss -> at_ initial p a -> at_ final p z -> diary o p i b ->
    ((forall j, (j <= i)%nat -> ~ travelling ps ss j) -> (b = true <-> a = 1 \/ a = -1)) /\
    ((exists j, (j <= i)%nat /\ travelling ps ss j) -> (exists k, (i <= k)%nat /\ travelling ps ss k) -> b = false) /\
    ((exists j, (j <= i)%nat /\ travelling ps ss j) -> (forall k, (i <= k)%nat -> ~ travelling ps ss k) ->
       forall c c', at_ ps (w - 1) c -> at_ ss (w - 1) c' -> (b = true <-> z = 1 \/ z = -1 /\ ~ (least_rating d prim c /\ least_rating d sec c'))).
Proof. exact occupancy_main. Qed.
Print Assumptions C125_occupancy_partial.

(** Coming home between two travels is not seen, however likely the activity there
    is performed at home. *)
Theorem C125_between_travels_refuted : exists prim sec d o, states_to_occupancy prim sec [1] [1] d = Ok o /\
  (exists ps ss, at_ prim 0 ps /\ at_ sec 0 ss /\ travelling ps ss 1 /\ ~ travelling ps ss 2 /\ travelling ps ss 3) /\
  (exists c c', diary prim 0 2 c /\ diary sec 0 2 c' /\ meaning d c = Some 3 /\ meaning d c' = Some 3) /\ diary o 0 2 false.
Proof.
  exists [[10; 920; 10; 920; 20]], [[10; 10; 10; 10; 10]], [(10, 3); (20, 2); (920, -3)], [[true; false; false; false; true]]. split; [vm_compute; reflexivity|]. split; [|split].
  - do 2 eexists. split; [reflexivity|]. split; [reflexivity|]. split; [exists 920, 10; repeat split; left; unfold travel_code; lia|]. split; [|exists 920, 10; repeat split; left; unfold travel_code; lia].
    intros (p & s & [= <-] & [= <-] & [T|T]); unfold travel_code in T; lia.
  - exists 10, 10. split; [eexists; split; reflexivity|]. split; [eexists; split; reflexivity|]. split; reflexivity.
  - eexists. split; reflexivity.
Qed.
Print Assumptions C125_between_travels_refuted.

(** Without an answer about the start the person is at home, whatever they do. *)
Theorem C125_start_refuted : exists prim sec d o, states_to_occupancy prim sec [-1] [2] d = Ok o /\
  (exists c, diary prim 0 0 c /\ diary sec 0 0 c /\ meaning d c = Some (-5)) /\ diary o 0 0 true.
Proof.
  exists [[210; 920; 210]], [[210; 920; 210]], [(210, -5); (920, -3)], [[true; false; false]]. split; [vm_compute; reflexivity|]. split; [exists 210; repeat split; eexists; split; reflexivity|]. eexists. split; reflexivity.
Qed.
Print Assumptions C125_start_refuted.

Example C125_example : states_to_occupancy [[10; 920; 20; 920; 10]; [20; 20; 20; 20; 20]] [[10; 10; 10; 10; 10]; [20; 20; 20; 920; 20]] [1; 2] [1; 2] [(10, 3); (20, 3); (920, -3)] =
  Ok [[true; false; false; false; true]; [false; false; false; false; false]] /\
  states_to_occupancy [[10; 11]] [[10; 10]] [1] [1] [(10, 3)] = Err KeyError.
Proof. vm_compute. auto. Qed.

(** ** C126: reason to be out *)

Theorem C126_out : forall o prim sec p i b c c', diary o p i b -> diary prim p i c -> diary sec p i c' ->
  exists x, diary (states_to_out_for_what_model o prim sec) p i x /\
    (b = true -> x = 0) /\ (b = false -> (work_code c \/ work_code c') -> x = 1) /\ (b = false -> ~ work_code c -> ~ work_code c' -> x = 2).
Proof. exact out_main. Qed.
Print Assumptions C126_out.

Example C126_example : states_to_out_for_what_model [[true; false; false; false]] [[210; 399; 400; 400]] [[210; 400; 400; 940]] = [[0; 1; 2; 1]].
Proof. reflexivity. Qed.

(** ** C127: grouping by household *)

(** One row per household and day, in the order of days then households, holding
    the sums over the members. *)
Theorem C127_grouped : forall n w rows hh ds, sized n w rows -> length hh = n -> length ds = n ->
  exists g keys, group_in_household_activity (mkTable w rows) hh ds = Ok g /\ sized (length keys) w g /\ lists_households hh ds keys /\
    forall k d h i, at_ keys k (d, h) -> (i < w)%nat -> diary g k i (sum_over (member hh ds h d) rows i).
Proof. intros n w rows hh ds S Lh Ld. destruct (group_main n w rows hh ds S Lh Ld) as (g & keys & E & Sg & K & M & V). exists g, keys. split; [exact E|]. split; [exact Sg|]. split; [split; assumption|exact V]. Qed.
Print Assumptions C127_grouped.

Theorem C127_lengths : forall w rows hh ds, (length hh <> length rows \/ length ds <> length rows)%nat -> group_in_household_activity (mkTable w rows) hh ds = Err AssertionError.
Proof. exact group_length_err. Qed.
Print Assumptions C127_lengths.

Example C127_example : group_in_household_activity (mkTable 2 [[1; 0]; [1; 1]; [0; 5]; [4; 4]]) [7; 8; 7; 7] [2; 1; 2; 1] = Ok [[4; 4]; [1; 1]; [1; 5]].
Proof. reflexivity. Qed.

(** ** C128: states of the sparse model *)

(** A household of state [a + 7 wk + 49 ot] has [a] members active at home, [wk]
    out for work or school and [ot] out for something else. *)
Theorem C128_state_partial : forall d sv mask N n, let w := steps sv in let hh := selected mask (households sv) in let ds := selected mask (days sv) in
  let o := selected mask (occ sv) in let prim := selected mask (primary sv) in let sec := selected mask (secondary sv) in
  sized N w (primary sv) -> sized N w (secondary sv) -> sized N w (occ sv) -> sized n w o -> (0 < n)%nat -> (0 < w)%nat -> length hh = n -> length ds = n ->
  (forall p i c, diary (primary sv) p i c -> meaning d c <> None) -> (forall p i c, diary (secondary sv) p i c -> meaning d c <> None) ->
  exists g keys, hh_sparse_states d sv mask = Ok g /\ lists_households hh ds keys /\ sized (length keys) w g /\
    forall k day h i, at_ keys k (day, h) -> (i < w)%nat -> exists a wk ot,
      counts n (fun p => belongs hh ds h day p /\ diary o p i true /\ exists c c', diary prim p i c /\ diary sec p i c' /\ active_codes d c c') a /\
      counts n (fun p => belongs hh ds h day p /\ diary o p i false /\ exists c c', diary prim p i c /\ diary sec p i c' /\ (work_code c \/ work_code c')) wk /\
      counts n (fun p => belongs hh ds h day p /\ diary o p i false /\ exists c c', diary prim p i c /\ diary sec p i c' /\ ~ (work_code c \/ work_code c')) ot /\
      diary g k i (a + 7 * wk + 49 * ot).
Proof. exact sparse_main. Qed.
Print Assumptions C128_state_partial.

(** Up to six members the state tells the three numbers. *)
Theorem C128_decoded_partial : forall a wk ot a' wk' ot', 0 <= a -> 0 <= wk -> 0 <= ot -> 0 <= a' -> 0 <= wk' -> 0 <= ot' -> a + wk + ot <= 6 -> a' + wk' + ot' <= 6 ->
  a + 7 * wk + 49 * ot = a' + 7 * wk' + 49 * ot' -> a = a' /\ wk = wk' /\ ot = ot'.
Proof. intros a wk ot a' wk' ot' H1 H2 H3 H4 H5 H6 H7 H8 E. apply digits7; lia. Qed.
Print Assumptions C128_decoded_partial.

(** Seven active members are not distinguished from one member at work. *)
Definition crowd (code : Z) (home : bool) (n : nat) : survey := mkSurvey 1 (repeat [code] n) (repeat [code] n) (repeat [home] n) (repeat [1] n) (repeat 5 n) (repeat 1 n).
Theorem C128_seven_refuted : hh_sparse_states names (crowd 20 true 7) (repeat true 7) = hh_sparse_states names (crowd 210 false 1) [true] /\
  hh_sparse_states names (crowd 210 false 1) [true] = Ok [[7]].
Proof. vm_compute. auto. Qed.
Print Assumptions C128_seven_refuted.

Example C128_example : hh_sparse_states ((10, "not active"%string) :: names) tou everybody = Ok [[0; 2; 8; 7]; [1; 1; 0; 0]].
Proof. vm_compute. reflexivity. Qed.

(** ** C129: sparse matrices *)

(** The transition stored at time [i] from [a] to [b] has the observed frequency
    of the moves from time [i] to the next one; nothing else is stored. *)
Theorem C129_sparse_partial : forall n w st, sized n w st -> (0 < n)%nat -> (0 < w)%nat -> Z.of_nat w <= 65536 -> (forall p i x, diary st p i x -> Z.of_nat x < 65536) ->
  exists p, states_to_sparse_tpm AlgoNothing w st = Ok p /\ n_times p = Z.of_nat w /\ parallel p /\
  (forall q i x, diary st q i x -> Z.of_nat x < n_states p) /\ (exists q i x, diary st q i x /\ n_states p = Z.of_nat (S x)) /\
  forall i, (i < w)%nat -> ordered_by_origin p (Z.of_nat i) /\
    forall a, let row := row_of p (Z.of_nat i) (Z.of_nat a) in
      let seen := length (filter (is_at i a) st) in
      let moved := fun b => length (filter (fun r => is_at i a r && is_at (next w i) b r) st) in
      (forall b q, In (b, q) row <-> exists b', b = Z.of_nat b' /\ (0 < moved b')%nat /\ q = (q_of (moved b') / q_of seen)%Q) /\
      StronglySorted Z.lt (map fst row) /\ ((0 < seen)%nat -> is_pdf (map snd row)) /\ (seen = 0%nat -> row = []).
Proof. exact sparse_tpm_main. Qed.
Print Assumptions C129_sparse_partial.

(** The option 'last' puts the matrix from the last time to the first one of the
    same day in place of the matrix from time 0 to time 1. *)
Theorem C129_last_refuted : exists w st p, states_to_sparse_tpm AlgoLast w st = Ok p /\
  (0 < length (filter (fun r => is_at 0 0 r && is_at 1 1 r) st))%nat /\ row_of p 0 0 = [] /\
  row_of p 0 1 = row_of p 2 1 /\ (forall r, In r st -> is_at 0 1 r = false).
Proof.
  exists 3%nat, [[0; 1; 1]; [0; 0; 1]]%nat. eexists. split; [vm_compute; reflexivity|]. split; [cbn; lia|]. split; [reflexivity|]. split; [reflexivity|]. intros r [<-|[<-|[]]]; reflexivity.
Qed.
Print Assumptions C129_last_refuted.

Example C129_example : entries (states_to_sparse_tpm AlgoNothing 3 [[0; 1; 1]; [0; 0; 1]]%nat) =
  [(0, 0, 0, 1 # 2); (0, 0, 1, 1 # 2); (1, 0, 1, 1%Q); (1, 1, 1, 1%Q); (2, 1, 0, 1%Q)] /\ states_to_sparse_tpm AlgoUnknown 1 [[0%nat]] = Err TypeError.
Proof. vm_compute. auto. Qed.

(** ** C130: activity profiles *)

(** Entry [k] of the profile at time [i] is the share, among the households and
    days with [k] as the smaller of the numbers of members at home and members
    awake, of those in which a member performs the activity. *)
Theorem C130_profile_partial : forall d name sv mask n, let w := steps sv in let hh := selected mask (households sv) in let ds := selected mask (days sv) in
  let o := selected mask (occ sv) in let a := selected mask (act sv) in let prim := selected mask (primary sv) in let sec := selected mask (secondary sv) in
  sized n w o -> sized n w a -> sized n w prim -> sized n w sec -> (0 < n)%nat -> (0 < w)%nat -> length hh = n -> length ds = n ->
  (forall p i x, diary a p i x -> x = 0 \/ x = 1) -> (forall h day k, counts n (belongs hh ds h day) k -> k <= 9) ->
  (forall p i c, diary prim p i c -> meaning d c <> None) -> (forall p i c, diary sec p i c -> meaning d c <> None) ->
  exists prof, activity_profile d name sv mask = Ok prof /\ length prof = w /\
    forall i row, at_ prof i row -> length row = 6%nat /\ at_ row 0 0%Q /\
      forall k q, (0 < k)%nat -> at_ row k q -> exists having doing,
        household_list (fun h day => (exists p, belongs hh ds h day p) /\ exists home awake, Z.of_nat k = Z.min home awake /\
           counts n (fun p => belongs hh ds h day p /\ diary o p i true) home /\ counts n (fun p => belongs hh ds h day p /\ diary a p i 1) awake) having /\
        household_list (fun h day => In (h, day) having /\ exists p c c', belongs hh ds h day p /\ diary prim p i c /\ diary sec p i c' /\ (meaning d c = Some name \/ meaning d c' = Some name)) doing /\
        (having = [] -> q == 0)%Q /\ (having <> [] -> q == q_of (length doing) / q_of (length having))%Q /\ (0 <= q <= 1)%Q.
Proof. exact profile_main. Qed.
Print Assumptions C130_profile_partial.

(** This is not the number of active occupants: with one member asleep at home and
    one awake at work, the household counts as having one active occupant, and that
    occupant as working. *)
Theorem C130_active_refuted : exists d sv mask prof row q, activity_profile d "work" sv mask = Ok prof /\ at_ prof 3 row /\ at_ row 1 q /\ (q == 1)%Q /\
  forall p, diary (selected mask (occ sv)) p 3 true -> ~ diary (selected mask (act sv)) p 3 1.
Proof.
  exists names, tou, everybody. do 3 eexists. split; [vm_compute; reflexivity|]. split; [reflexivity|]. split; [reflexivity|]. split; [reflexivity|].
  intros p (r & Hr & Hx) (r' & Hr' & Hy). destruct p as [|[|[|p]]]; cbn in Hr, Hr'; [| | |destruct p; discriminate]; injection Hr as <-; injection Hr' as <-; discriminate.
Qed.
Print Assumptions C130_active_refuted.

Example C130_example : match activity_profile names "cooking" tou everybody with Ok r => map (map Qred) r | Err _ => [] end =
  [[0; 1; 0; 0; 0; 0]; [0; 1; 1; 0; 0; 0]; [0; 1 # 2; 0; 0; 0; 0]; [0; 0; 0; 0; 0; 0]]%Q.
Proof. vm_compute. reflexivity. Qed.

(** ** C131: data of the four state model *)

Theorem C131_data : forall algo sv mask n, let w := steps sv in let hh := selected mask (households sv) in let ds := selected mask (days sv) in
  let o := selected mask (occ sv) in let a := selected mask (act sv) in sized n w o -> sized n w a -> (0 < n)%nat -> (0 < w)%nat -> length hh = n -> length ds = n ->
  (forall p i x, diary a p i x -> x = 0 \/ x = 1) -> algo <> AlgoUnknown ->
  exists tpm labels init st keys, get_data_4states algo sv mask = Ok (tpm, labels, map Some init) /\ lists_households hh ds keys /\ sized (length keys) w st /\ NoDup labels /\
    (forall x, In x labels -> exists p i k, diary st p i k /\ at_ labels k x) /\
    (forall k d h i, at_ keys k (d, h) -> (i < w)%nat -> exists s home awake, diary st k i s /\ at_ labels s (10 * home + awake) /\
       counts n (fun p => belongs hh ds h d p /\ diary o p i true) home /\ counts n (fun p => belongs hh ds h d p /\ diary a p i 1) awake) /\
    length init = length labels /\ is_pdf init /\ (forall k q, at_ init k q -> q == q_of (persons_at (Nat.eqb k) st 0) / q_of (length keys))%Q /\
    length tpm = w /\ (forall i m, at_ tpm i m -> let into := match algo, i with AlgoLast, O => (w - 1)%nat | _, _ => i end in frequencies (length labels) st (before w into) into m).
Proof. exact four_data. Qed.
Print Assumptions C131_data.

Example C131_example : match get_data_4states AlgoLast tou everybody with
  | Ok (tpm, labels, init) => labels = [10; 11; 12; 20; 22] /\ map (option_map Qred) init = map Some [0; 1 # 2; 0; 1 # 2; 0]%Q /\
      option_map (fun m => option_map (map Qred) (nth_error m 3)) (nth_error tpm 1) = Some (Some [0; 0; 0; 0; 1]%Q)
  | Err _ => False end.
Proof. vm_compute. auto. Qed.

(** The same for the sparse model of households of at most six members. *)
Theorem C131_sparse_data : forall d sv mask N n, let w := steps sv in let hh := selected mask (households sv) in let ds := selected mask (days sv) in
  let o := selected mask (occ sv) in let prim := selected mask (primary sv) in let sec := selected mask (secondary sv) in
  sized N w (primary sv) -> sized N w (secondary sv) -> sized N w (occ sv) -> sized n w o -> (0 < n)%nat -> (0 < w)%nat -> (Z.of_nat w <= 65536) -> length hh = n -> length ds = n ->
  (forall p i c, diary (primary sv) p i c -> meaning d c <> None) -> (forall p i c, diary (secondary sv) p i c -> meaning d c <> None) ->
  (forall h day k, counts n (belongs hh ds h day) k -> k <= 6) ->
  exists p labels init st keys, get_data_sparse9states d sv mask = Ok (p, labels, map Some init) /\ lists_households hh ds keys /\ sized (length keys) w st /\ NoDup labels /\
    (forall x, In x labels -> exists p i k, diary st p i k /\ at_ labels k x) /\
    (forall k day h i, at_ keys k (day, h) -> (i < w)%nat -> exists s a wk ot, diary st k i s /\ at_ labels s (a + 7 * wk + 49 * ot) /\ a + wk + ot <= 6 /\
      counts n (fun p => belongs hh ds h day p /\ diary o p i true /\ exists c c', diary prim p i c /\ diary sec p i c' /\ active_codes d c c') a /\
      counts n (fun p => belongs hh ds h day p /\ diary o p i false /\ exists c c', diary prim p i c /\ diary sec p i c' /\ (work_code c \/ work_code c')) wk /\
      counts n (fun p => belongs hh ds h day p /\ diary o p i false /\ exists c c', diary prim p i c /\ diary sec p i c' /\ ~ (work_code c \/ work_code c')) ot) /\
    length init = length labels /\ is_pdf init /\ (forall k q, at_ init k q -> q == q_of (persons_at (Nat.eqb k) st 0) / q_of (length keys))%Q /\
    n_times p = Z.of_nat w /\ n_states p = Z.of_nat (length labels) /\ parallel p /\
    (forall i a, (i < w)%nat -> ordered_by_origin p (Z.of_nat i) /\
      let row := row_of p (Z.of_nat i) (Z.of_nat a) in
      let seen := length (filter (is_at i a) st) in
      let moved := fun b => length (filter (fun r => is_at i a r && is_at (next w i) b r) st) in
      (forall b q, In (b, q) row <-> exists b', b = Z.of_nat b' /\ (0 < moved b')%nat /\ q = (q_of (moved b') / q_of seen)%Q) /\
      StronglySorted Z.lt (map fst row) /\ ((0 < seen)%nat -> is_pdf (map snd row)) /\ (seen = 0%nat -> row = [])).
Proof. exact sparse_data. Qed.
Print Assumptions C131_sparse_data.

Example C131_sparse_example : match get_data_sparse9states names tou everybody with
  | Ok (p, labels, init) => labels = [1; 2; 8] /\ map (option_map Qred) init = map Some [1 # 2; 1 # 2; 0]%Q /\
      entries (Ok p) = [(0, 0, 0, 1%Q); (0, 1, 1, 1%Q); (1, 0, 0, 1%Q); (1, 1, 2, 1%Q); (2, 0, 0, 1%Q); (2, 2, 2, 1%Q); (3, 0, 0, 1%Q); (3, 2, 1, 1%Q)]
  | Err _ => False end.
Proof. vm_compute. auto. Qed.

(** ** C132: active occupancy *)

(** The number of diaries of the subgroup whose person is at home and awake. *)
Theorem C132_active : forall sv mask n, let w := steps sv in let hh := selected mask (households sv) in let ds := selected mask (days sv) in
  let o := selected mask (occ sv) in let a := selected mask (act sv) in sized n w o -> sized n w a -> length hh = n -> length ds = n ->
  (forall p i x, diary a p i x -> x = 0 \/ x = 1) ->
  exists r, get_active_occupancy sv mask = Ok r /\ length r = w /\
    forall i x, at_ r i x -> counts n (fun p => diary o p i true /\ diary a p i 1) x.
Proof.
  intros sv mask n w hh ds o a So Sa Lh Ld Ha. destruct (active_main sv mask n So Sa Lh Ld Ha) as (r & E & L & V). exists r. split; [exact E|]. split; [exact L|]. intros i x Hx. rewrite (V i x Hx). apply counts_filter. intros p Hp.
  assert (Hi : (i < w)%nat) by (unfold w; rewrite <- L; apply (at_lt _ _ _ _ Hx)).
  destruct (sized_diary _ _ _ _ p i So Hp Hi) as (b & Hb). destruct (sized_diary _ _ _ _ p i Sa Hp Hi) as (y & Hy). fold o a. rewrite (cell_diary _ false _ _ _ _ Hb), (cell_diary _ 0 _ _ _ _ Hy), andb_true_iff, Z.eqb_eq. split.
  - intros (-> & ->). split; assumption.
  - intros (H1 & H2). split; [eapply diary_fun; eauto|eapply diary_fun; eauto].
Qed.
Print Assumptions C132_active.

Example C132_example : get_active_occupancy tou everybody = Ok [1; 3; 2; 0] /\ get_active_occupancy tou [false; true; false] = Ok [0; 1; 1; 0].
Proof. vm_compute. auto. Qed.

(** ** C133: place at the end of the diary *)

(** A missing answer is replaced by the place at the start of another diary: the
    one before it in the table. *)
Theorem C133_final_partial : forall initial final p f, at_ final p f -> length initial = length final ->
  exists x, at_ (final_location initial final) p x /\ (f <> -2 -> x = f) /\ (f = -2 -> at_ initial (match p with O => length initial - 1 | S q => q end)%nat x).
Proof. exact final_main. Qed.
Print Assumptions C133_final_partial.

(** Not the following day, as the comment of line 52 says. *)
Theorem C133_next_day_refuted : exists initial final x y, length initial = length final /\ at_ final 1 (-2) /\
  at_ (final_location initial final) 1 x /\ at_ initial 2 y /\ x <> y.
Proof. exists [1; 1; 2], [1; -2; 2], 1, 2. repeat split. discriminate. Qed.
Print Assumptions C133_next_day_refuted.

Example C133_example : final_location [1; 2; 1] [-2; -2; 2] = [1; 1; 2].
Proof. reflexivity. Qed.
