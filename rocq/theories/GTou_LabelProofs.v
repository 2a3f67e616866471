(** * Proofs about get_states and get_tpms_activity of the German survey. *)

From Coq Require Import String List ZArith QArith Bool Arith Lia Lqa.
From Verif Require Import Prelude PreludeFacts SpecBase SpecBaseFacts Parse_Model Parse_Spec Parse_Proofs Parse_DurProofs Parse_TpmProofs Parse_SemiProofs Appliance_Model StateMetric_Model
  Subgroup_NameProofs Matrix_Proofs Activity_LabelProofs GTou_Model GTou_Spec GTou_Proofs.
Import ListNotations.
Local Open Scope string_scope.

Lemma meaning_dset : forall (d : list (Z * string)) a c, meaning (dset Z.eqb d 0%Z a) c = if Z.eqb c 0 then Some a else meaning d c.
Proof.
  intros d a c. induction d as [|[k v] d IH]; cbn [dset meaning].
  - reflexivity.
  - destruct (Z.eqb_spec 0 k) as [E|N]; cbn [meaning].
    + subst k. destruct (Z.eqb c 0); reflexivity.
    + rewrite IH. destruct (Z.eqb_spec c k) as [->|]; [|reflexivity]. destruct (Z.eqb_spec k 0); [congruence|reflexivity].
Qed.

Definition away_dict (d : list (Z * string)) := dset Z.eqb d 0%Z "away".

Lemma activity_put : forall d b c, activity d b c = meaning (away_dict d) (put_away b c).
Proof.
  intros d b c. unfold activity, away_dict. rewrite meaning_dset. destruct b; cbn [negb orb put_away]; [reflexivity|]. reflexivity.
Qed.

Definition known (d : list (Z * string)) (t : list (list Z)) : Prop := forall p i c, diary t p i c -> c = 0%Z \/ meaning d c <> None.

Lemma known_away : forall d t, known d t -> forall p i c, diary t p i c -> meaning (away_dict d) c <> None.
Proof. intros d t K p i c H. unfold away_dict. rewrite meaning_dset. destruct (K p i c H) as [->|N]; [discriminate|]. destruct (Z.eqb c 0); [discriminate|exact N]. Qed.

(** Some entry is shown with at least five letters. *)
Definition has_long (d : list (Z * string)) (o : list (list bool)) (raw : list (list Z)) : Prop :=
  exists p i b c a, diary o p i b /\ diary raw p i c /\ activity d b c = Some a /\ (5 <= String.length a)%nat.

Lemma get_states_main : forall d sv mask n w, let raw := selected mask (primary sv) in let o := selected mask (occ sv) in
  sized n w raw -> sized n w o -> (0 < n)%nat -> (0 < w)%nat -> known d raw ->
  exists st, get_states (Some d) sv mask = Ok st /\ sized n w st /\
    forall p i b c a, diary o p i b -> diary raw p i c -> activity d b c = Some a -> exists x, diary st p i x /\ (a <> "-" -> x = a) /\ (a = "-" -> has_long d o raw -> x = "other").
Proof.
  intros d sv mask n w raw o Sr So Hn Hw K.
  destruct (labelled_main true true d sv mask n w Sr So Hn Hw (known_away d raw K)) as (h & labels & wd & E & V & Lg & _).
  fold raw in E, V, Lg. fold o in E, V, Lg. fold (away_dict d) in V, Lg.
  set (G := fun c => match meaning (away_dict d) c with Some s => s | None => "" end) in *.
  exists (map (map (fun x => ren wd (G x))) (cell2 put_away o raw)). split; [|split].
  - unfold get_states. rewrite E. cbn [bind]. apply read_labels_map. intros r x Hr Hx. destruct (proj1 (diary_in _ (cell2 put_away o raw) x)) as (p & i & D); [eauto|]. eapply V; eauto.
  - apply sized_map, sized_cell2; assumption.
  - intros p i b c a Hb Hc Ha. rewrite activity_put in Ha. exists (ren wd (G (put_away b c))).
    assert (Eg : G (put_away b c) = a) by (unfold G; rewrite Ha; reflexivity). split; [|split].
    + apply diary_map. exists (put_away b c). split; [apply diary_cell2; eauto|reflexivity].
    + intro N. rewrite Eg. unfold ren. destruct (String.eqb_spec a "-"); congruence.
    + intros Ed (p' & i' & b' & c' & a' & Hb' & Hc' & Ha' & L). rewrite Eg. destruct (ren_shown wd a) as (_ & S); [|exact (S Ed)]. intros _.
      rewrite activity_put in Ha'. destruct Lg as (Lg & _). etransitivity; [exact L|]. apply Lg. exists p', i', (put_away b' c'). split; [apply diary_cell2; eauto|].
      unfold G. rewrite Ha'. reflexivity.
Qed.

Lemma get_states_unknown : forall d sv mask n w p i c, sized n w (selected mask (primary sv)) -> sized n w (selected mask (occ sv)) ->
  diary (selected mask (primary sv)) p i c -> c <> 0%Z -> meaning d c = None -> get_states (Some d) sv mask = Err KeyError.
Proof.
  intros d sv mask n w p i c Sr So D N M. unfold get_states. rewrite (labelled_unknown true true d sv mask n w Sr So); [reflexivity|left; reflexivity|].
  exists p, i, c. split; [exact D|]. rewrite meaning_dset. destruct (Z.eqb_spec c 0); [congruence|exact M].
Qed.

Lemma get_states_empty : forall d sv mask, concat (selected mask (primary sv)) = [] -> get_states (Some d) sv mask = Err ValueError.
Proof. intros d sv mask H. unfold get_states. rewrite labelled_empty by exact H. reflexivity. Qed.

(** ** The initial distribution *)

Local Open Scope Q_scope.

Lemma q_nat_add : forall a b, q_nat (a + b) == q_nat a + q_nat b.
Proof. intros. unfold q_nat. rewrite Nat2Z.inj_add, inject_Z_plus. reflexivity. Qed.

Lemma q_nat_pos : forall n, (0 < n)%nat -> 0 < q_nat n.
Proof. intros n H. unfold q_nat. change 0%Q with (inject_Z 0). rewrite <- Zlt_Qlt. lia. Qed.

Lemma q_nat_nn : forall n, 0 <= q_nat n.
Proof. intro n. unfold q_nat. change 0%Q with (inject_Z 0). rewrite <- Zle_Qle. lia. Qed.

Lemma qsum_q_nat : forall l, qsum (map q_nat l) == q_nat (nsum l).
Proof. induction l as [|x l IH]; cbn; [reflexivity|]. unfold qsum in *. cbn [map fold_right]. rewrite IH, <- q_nat_add. reflexivity. Qed.

Lemma qsum_div : forall (l : list nat) s, qsum (map (fun c => q_nat c / s) l) == q_nat (nsum l) / s.
Proof.
  intros l s. induction l as [|x l IH]; [cbn; unfold Qdiv, q_nat; cbn; ring|]. unfold qsum in *. cbn [map fold_right]. rewrite IH.
  change (nsum (x :: l)) with (x + nsum l)%nat. rewrite q_nat_add. unfold Qdiv. ring.
Qed.

Lemma shares_pdf : forall inds m, inds <> [] -> is_pdf (map (fun c => q_nat c / q_nat (length inds)) (bincount inds m)).
Proof.
  intros inds m N. assert (P : 0 < q_nat (length inds)) by (apply q_nat_pos; destruct inds; [congruence|cbn; lia]). split.
  - intros i x H. apply at_map in H. destruct H as (c & _ & ->). apply Qle_shift_div_l; [exact P|]. pose proof (q_nat_nn c). lra.
  - rewrite total_qsum, qsum_div, bincount_sum. field. lra.
Qed.

Lemma mapM_first : forall (st : list (list nat)), (forall r, In r st -> r <> []) -> mapM (fun r => vget r 0) st = Ok (map (hd 0%nat) st).
Proof.
  induction st as [|r st IH]; intro H; [reflexivity|]. cbn [mapM map]. rewrite IH by (intros; apply H; right; auto). destruct r as [|x r]; [exfalso; eapply H; [left|]; reflexivity|]. reflexivity.
Qed.

Lemma count_first : forall k st, (forall r, In r st -> r <> []) -> count_nat k (map (hd 0%nat) st) = persons_at (Nat.eqb k) st 0.
Proof.
  intros k st. unfold persons_at. induction st as [|r st IH]; intro H; [reflexivity|]. cbn [map count_nat filter]. rewrite IH by (intros; apply H; right; auto).
  destruct r as [|x r]; [exfalso; eapply H; [left|]; reflexivity|]. cbn [hd nth_error]. destruct (Nat.eqb k x); reflexivity.
Qed.

Lemma initial_pdf_spec : forall n w st m, sized n w st -> (0 < n)%nat -> (0 < w)%nat -> (forall p x, diary st p 0 x -> (x < m)%nat) ->
  exists pdf, initial_pdf st m = Ok (map Some pdf) /\ length pdf = m /\ is_pdf pdf /\ forall k q, at_ pdf k q -> q == q_of (persons_at (Nat.eqb k) st 0) / q_of n.
Proof.
  intros n w st m (L & S) Hn Hw Hm.
  assert (NE : forall r, In r st -> r <> []) by (intros r Hr E; subst r; specialize (S _ Hr); cbn in S; lia).
  set (f := map (hd 0%nat) st). assert (Lf : length f = n) by (unfold f; rewrite map_length; exact L).
  assert (Nf : f <> []) by (intro E; rewrite E in Lf; cbn in Lf; lia).
  assert (Qs : qsum (map q_nat (bincount f m)) == q_nat n) by (rewrite qsum_q_nat, bincount_sum, Lf; reflexivity).
  pose proof (q_nat_pos n Hn) as Pn. set (s := qsum (map q_nat (bincount f m))) in *.
  exists (map (fun c => q_nat c / s) (bincount f m)). split; [|split; [|split]].
  - unfold initial_pdf. rewrite mapM_first by exact NE. cbn [bind]. fold f. fold s. rewrite !map_map. f_equal. apply map_ext. intro c. unfold nan_div.
    destruct (Qeq_bool s 0) eqn:E; [apply Qeq_bool_iff in E; rewrite E in Qs; exfalso; lra|reflexivity].
  - rewrite map_length. apply bincount_length. intros x Hx. unfold f in Hx. apply in_map_iff in Hx. destruct Hx as (r & <- & Hr). pose proof (NE r Hr). apply in_at in Hr. destruct Hr as (p & Hr).
    apply (Hm p). exists r. split; [exact Hr|]. destruct r; [congruence|reflexivity].
  - pose proof (shares_pdf f m Nf) as (A & B). rewrite Lf in A, B. split.
    + intros i x H. apply at_map in H. destruct H as (c & _ & ->). rewrite Qs. apply Qle_shift_div_l; [exact Pn|]. pose proof (q_nat_nn c). lra.
    + rewrite total_qsum, qsum_div, bincount_sum, Lf, Qs. field. lra.
  - intros k q H. apply at_map in H. destruct H as (c & Hc & ->). apply bincount_nth in Hc. subst c. unfold f. rewrite count_first by exact NE. rewrite Qs. reflexivity.
Qed.

Lemma get_tpms_main : forall (add use : bool) (d : list (Z * string)) algo sv mask n, let raw := selected mask (primary sv) in let o := selected mask (occ sv) in let w := steps sv in
  let d' := if add then away_dict d else d in
  sized n w raw -> sized n w o -> (0 < n)%nat -> (0 < w)%nat -> algo <> AlgoUnknown -> (forall p i c, diary raw p i c -> meaning d' c <> None) ->
  exists tpm labels init st, get_tpms_activity add use d algo sv mask = Ok (tpm, labels, map Some init) /\ sized n w st /\
    (forall p i b c a, diary o p i b -> diary raw p i c -> (if add then activity d b c else meaning d c) = Some a ->
       exists k x, diary st p i k /\ at_ labels k x /\ (a <> "-" -> x = a)) /\
    (use = true -> forall p i k p' i' k' x, diary st p i k -> diary st p' i' k' -> at_ labels k x -> at_ labels k' x -> k = k') /\
    (forall k v, In (k, v) d -> In v labels \/ add = true) /\ (add = true -> forall c v, meaning d c = Some v -> In v labels \/ c = 0%Z) /\
    length init = length labels /\ is_pdf init /\ (forall k q, at_ init k q -> q == q_of (persons_at (Nat.eqb k) st 0) / q_of n) /\
    length tpm = w /\ (forall i m, at_ tpm i m -> let into := match algo, i with AlgoLast, O => (w - 1)%nat | _, _ => i end in frequencies (length labels) st (before w into) into m).
Proof.
  intros add use d algo sv mask n raw o w d' Sr So Hn Hw Ha K.
  destruct (labelled_main add use d sv mask n w Sr So Hn Hw K) as (h & labels & wd & E & V & _ & D & _ & J).
  fold raw in E, V, J. fold o in E, V, J. fold (away_dict d) in D, V, J. fold d' in D, V, J.
  set (raw' := if add then cell2 put_away o raw else raw) in *.
  set (G := fun c => match meaning d' c with Some s => s | None => "" end) in *.
  assert (Sr' : sized n w raw') by (unfold raw'; destruct add; [apply sized_cell2|]; assumption).
  set (st := map (map h) raw'). assert (Ss : sized n w st) by (apply sized_map; exact Sr').
  assert (B : forall p i x, diary st p i x -> (x < length labels)%nat).
  { intros p i x Hx. apply diary_map in Hx. destruct Hx as (c & Hc & ->). eapply at_lt, V; eauto. }
  destruct (initial_pdf_spec n w st (length labels) Ss Hn Hw) as (init & Ei & Li & Pi & Fi); [intros p x Hx; eapply B; eauto|].
  destruct (@tpms_spec_max algo (Some (length labels)) (mkTable w st) (length labels)) as (ms & Em & Lm & Fm); cbn [width rows].
  { intros p r Hr. apply (proj2 Ss). eapply at_in; eauto. }
  { exact Hw. } { exact Ha. } { left; reflexivity. } { exact B. }
  exists ms, labels, init, st. split.
  { unfold get_tpms_activity. rewrite E. cbn [bind]. fold st. rewrite Ei. cbn [bind]. fold w. rewrite Em. reflexivity. }
  split; [exact Ss|]. split; [|split; [|split; [|split; [|repeat (split; [assumption|]); exact Fm]]]].
  - intros p i b c a Hb Hc Ea. set (x := if add then put_away b c else c).
    assert (Hx : diary raw' p i x). { unfold raw', x. destruct add; [apply diary_cell2; eauto|exact Hc]. }
    assert (Eg : G x = a). { unfold G, x, d'. destruct add; [rewrite <- activity_put|]; rewrite Ea; reflexivity. }
    exists (h x), (ren wd (G x)). split; [apply diary_map; eauto|]. split; [eapply V; eauto|]. intro N. rewrite Eg. unfold ren. destruct (String.eqb_spec a "-"); congruence.
  - intros Eu p i k p' i' k' x H1 H2 A1 A2. apply diary_map in H1, H2. destruct H1 as (c & Hc & ->), H2 as (c' & Hc' & ->).
    apply (J Eu p i c p' i' c' Hc Hc'). pose proof (V p i c Hc). pose proof (V p' i' c' Hc'). unfold at_ in *. congruence.
  - intros k v Hv. destruct add eqn:Ead; [auto|left]. apply D. unfold d'. apply (in_map snd _ _ Hv).
  - intros Ead c v Hv. destruct (Z.eq_dec c 0) as [->|N]; [auto|left]. apply D.
    assert (X : meaning d' c = Some v). { unfold d', away_dict. rewrite Ead, meaning_dset. destruct (Z.eqb_spec c 0); [congruence|exact Hv]. }
    revert X. generalize d'. clear. induction d' as [|[k u] d IH]; cbn; [discriminate|]. destruct (Z.eqb c k); intro X; [injection X as ->; auto|auto].
Qed.
