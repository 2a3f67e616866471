(** * C25-C30, C60-C62: parsing of time use diaries. *)

From Coq Require Import List ZArith QArith Bool Lia Arith.
From Verif Require Import Prelude SpecBase Parse_Model Parse_Spec Parse_Proofs Parse_DurProofs Parse_TpmProofs Parse_SemiProofs Parse_GroupProofs.
Import ListNotations.

(** ** C25 *)

Theorem C25_exact : forall A (eqb : A -> A -> bool), (forall x y, eqb x y = true <-> x = y) ->
  forall t, full (width t) (rows t) -> (0 < width t)%nat ->
  exists tr, states_to_transitions eqb false false t = Ok tr /\
    listing (changes (width t) (rows t)) (tr_times tr) (tr_persons tr) (tr_new tr) (tr_old tr).
Proof. exact transitions_exact. Qed.
Print Assumptions C25_exact.

(** With ignore_end_start_transitions nothing is listed at the first time step. *)
Theorem C25_exact_without_end_start : forall A (eqb : A -> A -> bool), (forall x y, eqb x y = true <-> x = y) ->
  forall t, full (width t) (rows t) -> (0 < width t)%nat ->
  exists tr, states_to_transitions eqb false true t = Ok tr /\
    listing (fun i p new old => (0 < i)%nat /\ changes (width t) (rows t) i p new old)
      (tr_times tr) (tr_persons tr) (tr_new tr) (tr_old tr).
Proof. exact transitions_exact_ignore. Qed.
Print Assumptions C25_exact_without_end_start.

(** With include_same_state every pair of consecutive states is listed. *)
Theorem C25_exact_same_state : forall A (eqb : A -> A -> bool) t, full (width t) (rows t) -> (0 < width t)%nat ->
  exists tr, states_to_transitions eqb true false t = Ok tr /\
    listing (goes (width t) (rows t)) (tr_times tr) (tr_persons tr) (tr_new tr) (tr_old tr).
Proof. exact transitions_exact_same. Qed.
Print Assumptions C25_exact_same_state.

Definition ex_diaries : table nat := mkTable 4 [[0; 0; 1; 0]; [2; 2; 2; 2]; [1; 0; 0; 2]]%nat.

Example C25_example :
  states_to_transitions Nat.eqb false false ex_diaries =
    Ok (mkTrans [0; 1; 2; 3; 3] [2; 2; 0; 0; 2] [1; 0; 1; 0; 2] [2; 1; 0; 1; 0])%nat /\
  states_to_transitions Nat.eqb false true ex_diaries =
    Ok (mkTrans [1; 2; 3; 3] [2; 0; 0; 2] [0; 1; 0; 2] [1; 0; 1; 0])%nat /\
  full (width ex_diaries) (rows ex_diaries).
Proof. split; [reflexivity|]. split; [reflexivity|]. intros [|[|[|[|p]]]] row H; try discriminate; injection H as <-; reflexivity. Qed.

(** ** C26 *)

Theorem C26_durations : forall A (eqb : A -> A -> bool), (forall x y, eqb x y = true <-> x = y) ->
  forall t, full (width t) (rows t) -> (0 < width t)%nat ->
  exists tr ds, states_to_transitions_durations eqb false false t = Ok (tr, ds) /\
    states_to_transitions eqb false false t = Ok tr /\
    length ds = length (tr_times tr) /\
    (forall k i p new old d, line (tr_times tr) (tr_persons tr) (tr_new tr) (tr_old tr) k i p new old -> at_ ds k d ->
       lasts (width t) (rows t) p i new d) /\
    (forall p, In p (tr_persons tr) -> total_Z (of_person (tr_persons tr) ds p) = Z.of_nat (width t)).
Proof.
  intros A eqb H t Hf Hw. destruct (@durations_spec A eqb H false t Hf Hw) as (tr & ds & E1 & E2 & L & V & T).
  exists tr, ds. split; [exact E1|]. split; [exact E2|]. split; [exact L|]. split.
  - intros k i p new old d Hl Hd. apply (V k i p new old d Hl Hd). left; reflexivity.
  - intros p Hp. apply T; auto.
Qed.
Print Assumptions C26_durations.

(** When the transition at midnight is ignored, the durations are still exact
    except for the last episode of a person that does not end the day in the
    state in which they started it: its duration is reported as zero. *)
Theorem C26_durations_without_end_start : forall A (eqb : A -> A -> bool), (forall x y, eqb x y = true <-> x = y) ->
  forall t, full (width t) (rows t) -> (0 < width t)%nat ->
  exists tr ds, states_to_transitions_durations eqb false true t = Ok (tr, ds) /\
    states_to_transitions eqb false true t = Ok tr /\
    length ds = length (tr_times tr) /\
    (forall k i p new old d, line (tr_times tr) (tr_persons tr) (tr_new tr) (tr_old tr) k i p new old -> at_ ds k d ->
      let later := exists k' i' new' old', (k < k')%nat /\ line (tr_times tr) (tr_persons tr) (tr_new tr) (tr_old tr) k' i' p new' old' in
      let closes := exists x, diary (rows t) p 0 x /\ diary (rows t) p (width t - 1) x in
      (later \/ closes -> lasts (width t) (rows t) p i new d) /\ (~ later -> ~ closes -> d = 0%Z)) /\
    (forall p, In p (tr_persons tr) -> (exists x, diary (rows t) p 0 x /\ diary (rows t) p (width t - 1) x) ->
      total_Z (of_person (tr_persons tr) ds p) = Z.of_nat (width t)).
Proof.
  intros A eqb H t Hf Hw. destruct (@durations_spec A eqb H true t Hf Hw) as (tr & ds & E1 & E2 & L & V & T).
  exists tr, ds. split; [exact E1|]. split; [exact E2|]. split; [exact L|]. split.
  - intros k i p new old d Hl Hd. destruct (V k i p new old d Hl Hd) as [V1 V2]. cbv zeta. split; [intro; apply V1; auto|intros; apply V2; auto].
  - intros p Hp Hx. apply T; auto.
Qed.
Print Assumptions C26_durations_without_end_start.

Example C26_example :
  states_to_transitions_durations Nat.eqb false false ex_diaries =
    Ok (mkTrans [0; 1; 2; 3; 3] [2; 2; 0; 0; 2] [1; 0; 1; 0; 2] [2; 1; 0; 1; 0], [1; 2; 1; 3; 1]%Z)%nat /\
  states_to_transitions_durations Nat.eqb false true ex_diaries =
    Ok (mkTrans [1; 2; 3; 3] [2; 0; 0; 2] [0; 1; 0; 2] [1; 0; 1; 0], [2; 1; 3; 0]%Z)%nat.
Proof. conj_vm. Qed.

(** ** C27 *)

(** The matrix of time [i] describes the moves into time [i]; that of the first
    time step is the one of the last time step when [first_tpm] is "last". *)
Theorem C27_frequencies : forall algo labels t n, full (width t) (rows t) -> (0 < width t)%nat -> algo <> AlgoUnknown ->
  (labels = Some n \/ labels = None /\ exists p i x, diary (rows t) p i x /\ n = S x) ->
  (forall p i x, diary (rows t) p i x -> (x < n)%nat) ->
  exists ms, states_to_tpms algo labels t = Ok ms /\ length ms = width t /\
    (forall i m, at_ ms i m ->
       let into := match algo, i with AlgoLast, O => (width t - 1)%nat | _, _ => i end in
       frequencies n (rows t) (before (width t) into) into m).
Proof. exact tpms_spec_max. Qed.
Print Assumptions C27_frequencies.

Theorem C27_unknown_algorithm : forall labels t ms, states_to_tpms AlgoUnknown labels t <> Ok ms.
Proof. exact tpms_unknown_algo. Qed.
Print Assumptions C27_unknown_algorithm.

Theorem C27_too_few_labels : forall algo n t, full (width t) (rows t) ->
  (exists p i x, diary (rows t) p i x /\ (n <= x)%nat) -> states_to_tpms algo (Some n) t = Err IndexError.
Proof. exact tpms_out_of_range. Qed.
Print Assumptions C27_too_few_labels.

Example C27_example :
  states_to_tpms AlgoNothing (Some 3%nat) (mkTable 2 [[0; 1]; [0; 0]; [1; 1]]%nat) =
    Ok [[[1; 0; 0]; [1 # 2; 1 # 2; 0 # 2]; [0; 0; 1]]; [[1 # 2; 1 # 2; 0 # 2]; [0; 1; 0]; [0; 0; 1]]] /\
  states_to_tpms AlgoLast None (mkTable 2 [[0; 1]; [0; 0]; [1; 1]]%nat) =
    Ok [[[1 # 2; 1 # 2]; [0; 1 # 1]]; [[1 # 2; 1 # 2]; [0; 1 # 1]]] /\
  states_to_tpms AlgoLast (Some 1%nat) (mkTable 2 [[0; 1]; [0; 0]; [1; 1]]%nat) = Err IndexError.
Proof. conj_vm. Qed.

(** ** C28 *)

(** The counts of the caller are left with a one in the first bin of the empty rows. *)
Theorem C28_normalised : forall counts, (forall i row, at_ counts i row -> row <> [] /\ nonneg row) ->
  exists pdfs counts', counts_to_pdf true counts = Ok (map (map Some) pdfs, counts') /\ length pdfs = length counts /\
    (forall i row pdf, at_ counts i row -> at_ pdfs i pdf -> scaled row pdf) /\
    length counts' = length counts /\
    (forall i row row', at_ counts i row -> at_ counts' i row' ->
       (0 < total row -> row' = row) /\
       (total row == 0 -> at_ row' 0 1 /\ length row' = length row /\ forall j x, (0 < j)%nat -> (at_ row' j x <-> at_ row j x))).
Proof. exact counts_to_pdf_spec. Qed.
Print Assumptions C28_normalised.

(** Without ensure_valid_pdf an empty row becomes NaN. *)
Theorem C28_nan_without_ensure : forall counts pdfs counts', counts_to_pdf false counts = Ok (pdfs, counts') ->
  counts' = counts /\ forall i row pdf, at_ counts i row -> at_ pdfs i pdf ->
    (total row == 0 -> pdf = map (fun _ => None) row) /\
    (nonneg row -> 0 < total row -> exists qs, pdf = map Some qs /\ scaled row qs).
Proof. exact counts_to_pdf_nan. Qed.
Print Assumptions C28_nan_without_ensure.

Theorem C28_no_bins : forall counts i, at_ counts i [] -> counts_to_pdf true counts = Err IndexError.
Proof. exact counts_to_pdf_empty. Qed.
Print Assumptions C28_no_bins.

Example C28_example :
  counts_to_pdf true [[1; 3]; [0; 0]] = Ok ([[Some (1 # 4); Some (3 # 4)]; [Some (1 # 1); Some 0]], [[1; 3]; [1; 0]]) /\
  counts_to_pdf false [[1; 3]; [0; 0]] = Ok ([[Some (1 # 4); Some (3 # 4)]; [None; None]], [[1; 3]; [0; 0]]).
Proof. conj_vm. Qed.

(** ** C29 *)

Theorem C29_faithful : forall A B (cmpA : A -> A -> comparison) (cmpB : B -> B -> comparison),
  total_order cmpA -> total_order cmpB -> forall (merge : A -> option B) raw,
  (exists p i x, diary raw p i x) -> (forall p i x, diary raw p i x -> merge x <> None) ->
  exists out labels, convert_states cmpA cmpB merge raw = Ok (out, labels) /\
    length out = length raw /\
    (forall p row row', at_ raw p row -> at_ out p row' -> length row' = length row) /\
    (forall p i x, diary raw p i x -> exists k y, diary out p i k /\ merge x = Some y /\ at_ labels k y) /\
    (forall k k' y y', (k < k')%nat -> at_ labels k y -> at_ labels k' y' -> cmpB y y' = Lt) /\
    (forall k, (k < length labels)%nat -> exists p i, diary out p i k).
Proof. exact convert_spec. Qed.
Print Assumptions C29_faithful.

(** Equal merged labels get equal indices, different ones different indices. *)
Theorem C29_equal_labels : forall A B (cmpA : A -> A -> comparison) (cmpB : B -> B -> comparison),
  total_order cmpA -> total_order cmpB -> forall (merge : A -> option B) raw out labels,
  (forall p i x, diary raw p i x -> merge x <> None) ->
  convert_states cmpA cmpB merge raw = Ok (out, labels) ->
  forall p i x k p' i' x' k', diary raw p i x -> diary out p i k -> diary raw p' i' x' -> diary out p' i' k' ->
  (merge x = merge x' <-> k = k').
Proof.
  intros A B cmpA cmpB HA HB merge raw out labels Hm E p i x k p' i' x' k' H1 H2 H3 H4.
  destruct (@convert_spec A B cmpA cmpB HA HB merge raw) as (out' & labels' & E' & _ & _ & V & S & _); [eauto|auto|].
  rewrite E in E'. injection E' as <- <-.
  assert (U : forall p i a b, diary out p i a -> diary out p i b -> a = b).
  { intros q j a b (r & G1 & G2) (r' & G3 & G4). unfold at_ in *. congruence. }
  destruct (V _ _ _ H1) as (k1 & y1 & D1 & M1 & L1). destruct (V _ _ _ H3) as (k2 & y2 & D2 & M2 & L2).
  assert (k1 = k) by (eapply U; eauto). assert (k2 = k') by (eapply U; eauto). subst. split; intro G.
  - destruct (Nat.lt_trichotomy k k') as [Hlt|[|Hlt]]; auto; exfalso.
    + assert (X := S _ _ _ _ Hlt L1 L2). assert (y1 = y2) by congruence. subst. rewrite (proj2 (proj1 HB y2 y2) eq_refl) in X. discriminate.
    + assert (X := S _ _ _ _ Hlt L2 L1). assert (y1 = y2) by congruence. subst. rewrite (proj2 (proj1 HB y2 y2) eq_refl) in X. discriminate.
  - subst. unfold at_ in *. congruence.
Qed.
Print Assumptions C29_equal_labels.

Theorem C29_missing_label : forall A B (cmpA : A -> A -> comparison) (cmpB : B -> B -> comparison),
  total_order cmpA -> forall (merge : A -> option B) raw,
  (exists p i x, diary raw p i x /\ merge x = None) -> convert_states cmpA cmpB merge raw = Err KeyError.
Proof. exact convert_missing. Qed.
Print Assumptions C29_missing_label.

Example C29_example :
  convert_states Nat.compare Nat.compare (fun x => if (x <? 10)%nat then Some (7 - x / 2)%nat else None) [[2; 8]; [3; 9]]%nat =
    Ok ([[1; 0]; [1; 0]], [3; 6])%nat /\
  convert_states Nat.compare Nat.compare (fun x => if (x <? 9)%nat then Some (7 - x / 2)%nat else None) [[2; 8]; [3; 9]]%nat =
    Err KeyError.
Proof. conj_vm. Qed.

(** ** C30 *)

Theorem C30_first_episodes : forall t n, full (width t) (rows t) -> (0 < width t)%nat -> distinct_states (rows t) n ->
  (forall p x, diary (rows t) p 0 x -> (x < n)%nat) ->
  exists pdfs, get_initial_durations_pdfs t = Ok (map (map Some) pdfs) /\ length pdfs = n /\
    (forall s pdf, at_ pdfs s pdf ->
       length pdf = (width t + 1)%nat /\ is_pdf pdf /\
       forall d q, at_ pdf d q ->
         (0 < persons_with (is_at 0 s) (rows t) ->
            q == persons_with (fun r => is_at 0 s r && first_lasts d r) (rows t) / persons_with (is_at 0 s) (rows t)) /\
         (persons_with (is_at 0 s) (rows t) == 0 -> q == if Nat.eqb d 0 then 1 else 0)).
Proof. intros t n Hf Hw Hd Hs. apply initial_spec; auto. apply distinct_uniq. exact Hd. Qed.
Print Assumptions C30_first_episodes.

Example C30_example :
  get_initial_durations_pdfs (mkTable 3 [[0; 0; 1]; [0; 1; 1]; [1; 1; 1]; [0; 0; 2]]%nat) =
    Ok [[Some (0 # 3); Some (1 # 3); Some (2 # 3); Some (0 # 3)]; [Some 0; Some 0; Some 0; Some (1 # 1)]; [Some (1 # 1); Some 0; Some 0; Some 0]].
Proof. vm_compute. reflexivity. Qed.

(** ** C60 *)

(** Every entry of the three arrays is the share of the transitions listed by
    states_to_transitions.  At the first time step, the persons that keep one
    state all day count as staying for the whole day. *)
Theorem C60_estimates : forall algo labels ignore t k, full (width t) (rows t) -> (0 < width t)%nat -> algo <> AlgoUnknown ->
  (labels = Some k \/ labels = None /\ distinct_states (rows t) k) ->
  (forall p i x, diary (rows t) p i x -> (x < k)%nat) ->
  let into i := match algo, i with AlgoLast, O => (width t - 1)%nat | _, _ => i end in
  exists tr ds tpm dur durp,
    states_to_transitions_durations Nat.eqb false ignore t = Ok (tr, ds) /\
    states_to_tpms_with_durations algo labels ignore t = Ok (tpm, map (map (map Some)) dur, map (map (map (map Some))) durp) /\
    length tpm = width t /\ length dur = width t /\ length durp = width t /\
    (forall i m, at_ tpm i m -> length m = k /\ forall a row, at_ m a row ->
       shares a k (fun b => if ((i =? 0) && (b =? a))%nat then whole_day a (rows t)
                            else lines3 (tr_times tr) (tr_old tr) (tr_new tr) (into i) a b) row) /\
    (forall i m, at_ dur i m -> length m = k /\ forall b pdf, at_ m b pdf ->
       shares 0 (width t + 1) (fun d => if ((i =? 0) && (d =? width t))%nat then whole_day b (rows t)
                            else lines3 (tr_times tr) (tr_new tr) (map Z.to_nat ds) (into i) b d) pdf) /\
    (forall i m, at_ durp i m -> length m = k /\ forall a m', at_ m a m' -> length m' = k /\ forall b pdf, at_ m' b pdf ->
       shares 0 (width t + 1) (fun d => if ((i =? 0) && (b =? a) && (d =? width t))%nat then whole_day a (rows t)
                            else lines4 (tr_times tr) (tr_old tr) (tr_new tr) (map Z.to_nat ds) (into i) a b d) pdf).
Proof. exact semi_spec. Qed.
Print Assumptions C60_estimates.

Example C60_example :
  exists tpm durp, states_to_tpms_with_durations AlgoNothing None false (mkTable 2 [[0; 1]; [0; 0]; [1; 1]]%nat) =
    Ok (tpm, [[[Some (0 # 2); Some (1 # 2); Some (1 # 2)]; [Some 0; Some 0; Some (1 # 1)]];
              [[Some (1 # 1); Some 0; Some 0]; [Some 0; Some (1 # 1); Some 0]]], durp) /\
  tpm = [[[1 # 1; 0]; [1 # 2; 1 # 2]]; [[0; 1 # 1]; [0; 1]]].
Proof. eexists. eexists. split; [vm_compute; reflexivity|reflexivity]. Qed.

(** ** C61 *)

(** A line listed with a secondary diary may name a person that never was in
    the old state nor in the new state. *)
Theorem C61_refuted : exists (tp ts : table nat) tr k i p new old,
  full (width tp) (rows tp) /\ full (width tp) (rows ts) /\ width ts = width tp /\ length (rows ts) = length (rows tp) /\
  states_to_transitions_secondary Nat.eqb tp ts = Ok tr /\
  line (tr_times tr) (tr_persons tr) (tr_new tr) (tr_old tr) k i p new old /\
  forall j, ~ diary (rows tp) p j old /\ ~ diary (rows ts) p j old /\ ~ diary (rows tp) p j new /\ ~ diary (rows ts) p j new.
Proof.
  exists (mkTable 2 [[1; 2]; [5; 5]])%nat, (mkTable 2 [[0; 0]; [6; 7]])%nat. eexists. exists 0%nat, 1%nat, 1%nat, 2%nat, 1%nat.
  split; [|split; [|split; [|split; [|split; [|split]]]]].
  1,2: intros [|[|[|p]]] row H; try discriminate; injection H as <-; reflexivity.
  1,2: reflexivity.
  - vm_compute. reflexivity.
  - repeat split.
  - intro j. repeat split; intros (r & H1 & H2); unfold at_ in H1; simpl in H1; injection H1 as <-; destruct j as [|[|[|j]]]; discriminate.
Qed.
Print Assumptions C61_refuted.

(** What does hold: the persons listed at a time are exactly those that lose a
    state, and the moves listed at a time are exactly those that happen; what
    is missing is that a move is on the line of the person that makes it. *)
Theorem C61_listed_partial : forall A (eqb : A -> A -> bool), (forall x y, eqb x y = true <-> x = y) ->
  forall tp ts : table A, full (width tp) (rows tp) -> full (width tp) (rows ts) ->
  width ts = width tp -> length (rows ts) = length (rows tp) -> (0 < width tp)%nat ->
  exists tr, states_to_transitions_secondary eqb tp ts = Ok tr /\
    length (tr_persons tr) = length (tr_times tr) /\ length (tr_new tr) = length (tr_times tr) /\ length (tr_old tr) = length (tr_times tr) /\
    (forall i p, (exists k, at_ (tr_times tr) k i /\ at_ (tr_persons tr) k p) <->
       exists j x y, i = S j /\ diary (rows tp) p i y /\ (diary (rows tp) p j x \/ diary (rows ts) p j x) /\ vanished (rows tp) (rows ts) p i x) /\
    (forall i new old, (exists k, at_ (tr_times tr) k i /\ at_ (tr_new tr) k new /\ at_ (tr_old tr) k old) <->
       exists j p, i = S j /\ vanished (rows tp) (rows ts) p i old /\
         (diary (rows tp) p i new /\ diary (rows tp) p j old \/ diary (rows ts) p i new /\ diary (rows ts) p j old)).
Proof. exact secondary_spec. Qed.
Print Assumptions C61_listed_partial.

Example C61_example :
  states_to_transitions_secondary Nat.eqb (mkTable 3 [[1; 2; 2]; [5; 0; 5]])%nat (mkTable 3 [[0; 1; 0]; [0; 5; 6]])%nat =
    Ok (mkTrans [1; 2; 2] [0; 0; 1] [1; 5; 0] [0; 0; 1])%nat.
Proof. vm_compute. reflexivity. Qed.

(** ** C62 *)

Theorem C62_counts : forall t households days, full (width t) (rows t) -> (0 < width t)%nat ->
  (length (rows t) <= length households)%nat -> (length (rows t) <= length days)%nat ->
  exists out, group_hh_transitions None t households days = Ok out /\
    NoDup (map fst out) /\
    (forall i new old h d c, In ((i, new, old, h, d), c) out <->
       (0 < c)%nat /\ (i < width t)%nat /\ new <> old /\ c = household_moves (width t) (rows t) households days i new old h d).
Proof. exact group_spec. Qed.
Print Assumptions C62_counts.

Theorem C62_missing_household : forall t households days p i new old, full (width t) (rows t) ->
  changes (width t) (rows t) i p new old -> (length households <= p)%nat ->
  group_hh_transitions None t households days = Err IndexError.
Proof. exact group_short. Qed.
Print Assumptions C62_missing_household.

Example C62_example :
  group_hh_transitions None (mkTable 2 [[0; 1]; [0; 1]; [1; 1]; [0; 1]]%nat) [4; 4; 4; 5]%nat [1; 1; 1; 1]%nat =
    Ok [((0, 0, 1, 4, 1), 2); ((0, 0, 1, 5, 1), 1); ((1, 1, 0, 4, 1), 2); ((1, 1, 0, 5, 1), 1)]%nat.
Proof. vm_compute. reflexivity. Qed.
