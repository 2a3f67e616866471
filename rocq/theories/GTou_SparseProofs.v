(** * Proofs about the sparse states of households of the German survey. *)

From Coq Require Import String List ZArith QArith Bool Arith Lia Lqa Sorted.
From Verif Require Import Prelude PreludeFacts SpecBase SpecBaseFacts Sparse_Model Sparse_Spec Parse_Model Parse_Spec Parse_Proofs Parse_DurProofs Parse_TpmProofs Parse_SemiProofs Appliance_Model StateMetric_Model
  Matrix_Proofs Activity_LabelProofs GTou_Model GTou_Spec GTou_Proofs GTou_LabelProofs GTou_OccProofs GTou_HouseProofs.
Import ListNotations.
Local Open Scope Z_scope.

Lemma counts_filter : forall n (f : nat -> bool) P, (forall p, (p < n)%nat -> (f p = true <-> P p)) -> counts n P (how_many n f).
Proof.
  intros n f P H. exists (filter f (seq 0 n)). split; [apply NoDup_filter, seq_NoDup|]. split; [reflexivity|]. intro p. rewrite filter_In, in_seq. split.
  - intros (L & E). split; [lia|]. apply H; [lia|exact E].
  - intros (L & E). split; [lia|]. apply H; assumption.
Qed.

Lemma counts_unique : forall n P k k', counts n P k -> counts n P k' -> k = k'.
Proof.
  intros n P k k' (l & N & <- & H) (l' & N' & <- & H'). f_equal. apply Nat.le_antisymm; apply NoDup_incl_length; auto; intros p Hp; [apply H', H, Hp|apply H, H', Hp].
Qed.

Lemma counts_le : forall n P Q k k', counts n P k -> counts n Q k' -> (forall p, (p < n)%nat -> P p -> Q p) -> k <= k'.
Proof.
  intros n P Q k k' (l & N & <- & H) (l' & N' & <- & H') I. apply Nat2Z.inj_le. apply NoDup_incl_length; [exact N|]. intros p Hp. apply H'. apply H in Hp. destruct Hp. split; auto.
Qed.

Lemma member_belongs : forall hh ds h d p, member hh ds h d p = true <-> belongs hh ds h d p.
Proof.
  intros hh ds h d p. unfold member, belongs, at_. destruct (nth_error hh p), (nth_error ds p); try (split; [discriminate|intros (H1 & H2); discriminate]).
  rewrite andb_true_iff, !Z.eqb_eq. split; [intros (-> & ->); auto|intros ([= ->] & [= ->]); auto].
Qed.

Lemma where_from_ge : forall m j x, In x (where_from j m) -> (j <= x)%nat.
Proof.
  induction m as [|c m IH]; intros j x H; [destruct H|]. cbn in H. destruct c; [destruct H as [H|H]; [lia|]|]; apply IH in H; lia.
Qed.

(** The rows selected by a mask. *)
Lemma selected_at : forall A m (l : list A) q x, at_ (selected m l) q x <-> exists p, at_ (where_true m) q p /\ at_ l p x.
Proof.
  intros A m l q x. rewrite <- selected_compress. unfold where_true.
  enough (X : forall k, at_ (compress m l) q x <-> exists p, at_ (where_from k m) q (k + p)%nat /\ at_ l p x) by (rewrite (X 0%nat); reflexivity).
  revert l q. unfold at_. induction m as [|b m IH]; intros [|y l] q k; cbn [compress where_from]; try (split; [destruct q; discriminate|intros (p & H1 & H2); try (destruct p; discriminate); destruct q; discriminate]).
  destruct b.
  - destruct q as [|q]; cbn [nth_error].
    + split; [intros [= ->]; exists 0%nat; rewrite Nat.add_0_r; auto|]. intros (p & [= Hp] & H2). assert (p = 0)%nat by lia. subst p. exact H2.
    + rewrite (IH l q (S k)). split; intros (p & H1 & H2).
      * exists (S p). replace (k + S p)%nat with (S k + p)%nat by lia. auto.
      * destruct p as [|p]; [exfalso|exists p; replace (S k + p)%nat with (k + S p)%nat by lia; auto]. rewrite Nat.add_0_r in H1. clear - H1.
        apply nth_error_In, where_from_ge in H1. lia.
  - rewrite (IH l q (S k)). split; intros (p & H1 & H2).
    + exists (S p). replace (k + S p)%nat with (S k + p)%nat by lia. auto.
    + destruct p as [|p]; [exfalso|exists p; replace (S k + p)%nat with (k + S p)%nat by lia; auto]. rewrite Nat.add_0_r in H1. clear - H1.
      apply nth_error_In, where_from_ge in H1. lia.
Qed.

Lemma selected_diary : forall A m (t : list (list A)) q i x, diary (selected m t) q i x <-> exists p, at_ (where_true m) q p /\ diary t p i x.
Proof.
  intros A m t q i x. unfold diary. split.
  - intros (r & Hr & Hx). apply selected_at in Hr. destruct Hr as (p & H1 & H2). exists p. split; [exact H1|]. exists r. auto.
  - intros (p & H1 & r & H2 & H3). exists r. split; [apply selected_at; eauto|exact H3].
Qed.

Lemma convert_read : forall (d : codes string) raw, (exists r x, In r raw /\ In x r) -> (forall p i c, diary raw p i c -> meaning d c <> None) ->
  exists st lab, convert_states Z.compare String.compare (merge d) raw = Ok (st, lab) /\
    read_labels lab st = Ok (map (map (fun c => match meaning d c with Some s => s | None => ""%string end)) raw).
Proof.
  intros d raw NE K. set (g := fun c => match meaning d c with Some s => s | None => ""%string end).
  destruct (convert_map _ _ _ _ Z_order string_order (merge d) g raw NE) as (h & lab & E & _ & _ & V).
  { intros r x Hr Hx. rewrite meaning_merge. destruct (proj1 (diary_in _ raw x)) as (p & i & D); [eauto|]. unfold g. specialize (K p i x D). destruct (meaning d x); congruence. }
  exists (map (map h) raw), lab. split; [exact E|]. apply read_labels_map. exact V.
Qed.

Lemma sized_some : forall A n w (t : list (list A)), sized n w t -> (0 < n)%nat -> (0 < w)%nat -> exists r x, In r t /\ In x r.
Proof. intros A n w t S Hn Hw. destruct (sized_diary _ _ _ _ 0 0 S Hn Hw) as (x & Hx). destruct (proj2 (diary_in _ t x)) as (r & Hr & Hx'); eauto. Qed.

Lemma sparse_main : forall d sv mask N n, let w := steps sv in let hh := selected mask (households sv) in let ds := selected mask (days sv) in
  let o := selected mask (occ sv) in let prim := selected mask (primary sv) in let sec := selected mask (secondary sv) in
  sized N w (primary sv) -> sized N w (secondary sv) -> sized N w (occ sv) -> sized n w o -> (0 < n)%nat -> (0 < w)%nat -> length hh = n -> length ds = n ->
  (forall p i c, diary (primary sv) p i c -> meaning d c <> None) -> (forall p i c, diary (secondary sv) p i c -> meaning d c <> None) ->
  exists g keys, hh_sparse_states d sv mask = Ok g /\ lists_households hh ds keys /\ sized (length keys) w g /\
    forall k day h i, at_ keys k (day, h) -> (i < w)%nat -> exists a wk ot,
      counts n (fun p => belongs hh ds h day p /\ diary o p i true /\ exists c c', diary prim p i c /\ diary sec p i c' /\ active_codes d c c') a /\
      counts n (fun p => belongs hh ds h day p /\ diary o p i false /\ exists c c', diary prim p i c /\ diary sec p i c' /\ (work_code c \/ work_code c')) wk /\
      counts n (fun p => belongs hh ds h day p /\ diary o p i false /\ exists c c', diary prim p i c /\ diary sec p i c' /\ ~ (work_code c \/ work_code c')) ot /\
      diary g k i (a + 7 * wk + 49 * ot).
Proof.
  intros d sv mask N n w hh ds o prim sec Sp Ss So So' Hn Hw Lh Ld Kp Ks.
  assert (HN : (0 < N)%nat). { destruct (sized_diary _ _ _ _ 0 0 So' Hn Hw) as (x & Hx). apply selected_diary in Hx. destruct Hx as (p & _ & Hx). destruct (diary_sized _ _ _ _ _ _ _ So Hx). lia. }
  destruct (convert_read d (primary sv) (sized_some _ _ _ _ Sp HN Hw) Kp) as (st1 & lab1 & E1 & R1).
  destruct (convert_read d (secondary sv) (sized_some _ _ _ _ Ss HN Hw) Ks) as (st2 & lab2 & E2 & R2).
  set (g := fun c => match meaning d c with Some s => s | None => ""%string end) in *.
  unfold hh_sparse_states, personas_states. rewrite E1. cbn [bind]. rewrite E2. cbn [bind]. rewrite R1. cbn [bind]. rewrite R2. cbn [bind].
  set (A := cell2 (fun a b => negb (String.eqb a "not active") && negb (String.eqb b "not active")) (map (map g) (primary sv)) (map (map g) (secondary sv))).
  set (out := states_to_out_for_what_model (occ sv) (primary sv) (secondary sv)). set (T := cell2 persona out A).
  assert (Cell : forall p i b c c', diary (occ sv) p i b -> diary (primary sv) p i c -> diary (secondary sv) p i c' ->
    exists x, diary T p i x /\ x = bool_Z (b && negb (String.eqb (g c) "not active") && negb (String.eqb (g c') "not active")) +
       7 * bool_Z (negb b && (is_for_work_or_school c || is_for_work_or_school c')) + 49 * bool_Z (negb b && negb (is_for_work_or_school c || is_for_work_or_school c'))).
  { intros p i b c c' Hb Hc Hc'. destruct (out_main (occ sv) (primary sv) (secondary sv) p i b c c' Hb Hc Hc') as (y & Hy & O0 & O1 & O2). fold out in Hy.
    eexists. split; [apply diary_cell2; exists y; eexists; split; [exact Hy|split; [|reflexivity]]|].
    - unfold A. apply diary_cell2. exists (g c), (g c'). split; [apply diary_map; eauto|]. split; [apply diary_map; eauto|reflexivity].
    - destruct b; cbn [negb andb].
      + rewrite (O0 eq_refl). unfold persona. cbn [Z.eqb]. cbn [bool_Z]. destruct (_ && _); reflexivity.
      + rewrite <- !work_school_code in O1, O2. destruct (is_for_work_or_school c), (is_for_work_or_school c'); cbn [orb negb bool_Z];
          try (rewrite O1 by tauto; reflexivity). rewrite O2 by (auto; discriminate). reflexivity. }
  assert (ST : sized N w T).
  { apply sized_cell2.
    - unfold out, states_to_out_for_what_model. split; [rewrite map2_length, combine_length, (proj1 So), (proj1 Sp), (proj1 Ss); lia|]. intros r Hr. apply in_at in Hr. destruct Hr as (p & Hr).
      apply at_map2 in Hr. destruct Hr as (ro & [rp rs] & Ho & Hps & ->). apply combine_at in Hps. destruct Hps as (Hp & Hs). cbn [fst snd]. rewrite map2_length, combine_length.
      rewrite (proj2 So ro), (proj2 Sp rp), (proj2 Ss rs); [lia|eapply at_in; eauto..].
    - apply sized_cell2; apply sized_map; assumption. }
  set (t := selected mask T). rewrite !selected_compress. fold t hh ds w.
  assert (Pos : forall q, (q < n)%nat -> exists p, at_ (where_true mask) q p /\ (p < N)%nat).
  { intros q Hq. destruct (sized_diary _ _ _ _ q 0 So' Hq Hw) as (x & Hx). apply selected_diary in Hx. destruct Hx as (p & H1 & H2). exists p. split; [exact H1|]. apply (diary_sized _ _ _ _ _ _ _ So H2). }
  assert (St : sized n w t).
  { split.
    - apply Nat.le_antisymm.
      + apply Nat.nlt_ge. intro L. destruct (lt_at _ t n L) as (r & Hr). apply selected_at in Hr. destruct Hr as (p & H1 & H2). pose proof (at_lt _ _ _ _ H2) as L2. rewrite (proj1 ST) in L2.
        destruct (lt_at _ (occ sv) p) as (ro & Hro); [rewrite (proj1 So); exact L2|]. assert (at_ o n ro) as X by (apply selected_at; eauto). apply at_lt in X. rewrite (proj1 So') in X. lia.
      + destruct n as [|n']; [lia|]. destruct (Pos n' ltac:(lia)) as (p & H1 & H2). destruct (lt_at _ T p) as (r & Hr); [rewrite (proj1 ST); exact H2|]. assert (at_ t n' r) as X by (apply selected_at; eauto). apply at_lt in X. lia.
    - intros r Hr. apply in_at in Hr. destruct Hr as (q & Hr). apply selected_at in Hr. destruct Hr as (p & _ & Hr). apply ST. eapply at_in; eauto. }
  destruct (group_main n w t hh ds St Lh Ld) as (gr & keys & E & Sg & K1 & K2 & V). exists gr, keys. split; [exact E|]. split; [split; [exact K1|exact K2]|]. split; [exact Sg|].
  intros k day h i Hk Hi.
  set (fA := fun q => member hh ds h day q && (cell false o q i && negb (String.eqb (g (cell 0 prim q i)) "not active") && negb (String.eqb (g (cell 0 sec q i)) "not active"))).
  set (fW := fun q => member hh ds h day q && (negb (cell false o q i) && (is_for_work_or_school (cell 0 prim q i) || is_for_work_or_school (cell 0 sec q i)))).
  set (fO := fun q => member hh ds h day q && (negb (cell false o q i) && negb (is_for_work_or_school (cell 0 prim q i) || is_for_work_or_school (cell 0 sec q i)))).
  assert (Row : forall q, (q < n)%nat -> exists b c c', diary o q i b /\ diary prim q i c /\ diary sec q i c' /\
     diary t q i (bool_Z (b && negb (String.eqb (g c) "not active") && negb (String.eqb (g c') "not active")) +
       7 * bool_Z (negb b && (is_for_work_or_school c || is_for_work_or_school c')) + 49 * bool_Z (negb b && negb (is_for_work_or_school c || is_for_work_or_school c'))) /\
     meaning d c = Some (g c) /\ meaning d c' = Some (g c')).
  { intros q Hq. destruct (Pos q Hq) as (p & H1 & H2). destruct (sized_diary _ _ _ _ p i So H2 Hi) as (b & Hb). destruct (sized_diary _ _ _ _ p i Sp H2 Hi) as (c & Hc). destruct (sized_diary _ _ _ _ p i Ss H2 Hi) as (c' & Hc').
    destruct (Cell p i b c c' Hb Hc Hc') as (x & Hx & ->). exists b, c, c'. split; [apply selected_diary; eauto|]. split; [apply selected_diary; eauto|]. split; [apply selected_diary; eauto|]. split; [apply selected_diary; eauto|].
    specialize (Kp p i c Hc). specialize (Ks p i c' Hc'). unfold g. destruct (meaning d c), (meaning d c'); try congruence. split; reflexivity. }
  exists (how_many n fA), (how_many n fW), (how_many n fO). split; [|split; [|split]].
  - apply counts_filter. intros q Hq. destruct (Row q Hq) as (b & c & c' & Hb & Hc & Hc' & _ & M1 & M2). unfold fA. rewrite (cell_diary _ _ _ _ _ _ Hb), (cell_diary _ _ _ _ _ _ Hc), (cell_diary _ _ _ _ _ _ Hc').
    rewrite !andb_true_iff, !negb_true_iff, !String.eqb_neq, member_belongs. split.
    + intros (B & (-> & N1) & N2). split; [exact B|]. split; [exact Hb|]. exists c, c'. repeat (split; [assumption|]). exists (g c), (g c'). auto.
    + intros (B & Hb' & e & e' & He & He' & a1 & a2 & A1 & A2 & A3 & A4). rewrite (diary_fun _ _ _ _ _ _ He Hc) in A1. rewrite (diary_fun _ _ _ _ _ _ He' Hc') in A2. split; [exact B|]. split; [split; [eapply diary_fun; eauto|congruence]|congruence].
  - apply counts_filter. intros q Hq. destruct (Row q Hq) as (b & c & c' & Hb & Hc & Hc' & _). unfold fW. rewrite (cell_diary _ _ _ _ _ _ Hb), (cell_diary _ _ _ _ _ _ Hc), (cell_diary _ _ _ _ _ _ Hc').
    rewrite !andb_true_iff, negb_true_iff, orb_true_iff, !work_school_code, member_belongs. split.
    + intros (B & -> & W). split; [exact B|]. split; [exact Hb|]. exists c, c'. auto.
    + intros (B & Hb' & e & e' & He & He' & W). rewrite (diary_fun _ _ _ _ _ _ He Hc), (diary_fun _ _ _ _ _ _ He' Hc') in W. split; [exact B|]. split; [eapply diary_fun; eauto|exact W].
  - apply counts_filter. intros q Hq. destruct (Row q Hq) as (b & c & c' & Hb & Hc & Hc' & _). unfold fO. rewrite (cell_diary _ _ _ _ _ _ Hb), (cell_diary _ _ _ _ _ _ Hc), (cell_diary _ _ _ _ _ _ Hc').
    rewrite !andb_true_iff, !negb_true_iff, member_belongs. rewrite <- (not_true_iff_false (_ || _)), orb_true_iff, !work_school_code. split.
    + intros (B & -> & W). split; [exact B|]. split; [exact Hb|]. exists c, c'. auto.
    + intros (B & Hb' & e & e' & He & He' & W). rewrite (diary_fun _ _ _ _ _ _ He Hc), (diary_fun _ _ _ _ _ _ He' Hc') in W. split; [exact B|]. split; [eapply diary_fun; eauto|exact W].
  - pose proof (V k day h i Hk Hi) as D. rewrite (sum_over_ext _ _ _ (fun q => (bool_Z (cell false o q i && negb (String.eqb (g (cell 0 prim q i)) "not active") && negb (String.eqb (g (cell 0 sec q i)) "not active")) +
        7 * bool_Z (negb (cell false o q i) && (is_for_work_or_school (cell 0 prim q i) || is_for_work_or_school (cell 0 sec q i)))) +
        49 * bool_Z (negb (cell false o q i) && negb (is_for_work_or_school (cell 0 prim q i) || is_for_work_or_school (cell 0 sec q i))))) in D.
    + rewrite !total_Z_map_add, !total_Z_scale, !total_bool in D. unfold how_many. rewrite (proj1 St) in D. exact D.
    + intros q Hq _. rewrite (proj1 St) in Hq. destruct (Row q Hq) as (b & c & c' & Hb & Hc & Hc' & Ht & _). change (nth i (nth q t []) 0) with (cell 0 t q i).
      rewrite (cell_diary _ _ _ _ _ _ Hb), (cell_diary _ _ _ _ _ _ Hc), (cell_diary _ _ _ _ _ _ Hc'), (cell_diary _ _ _ _ _ _ Ht). reflexivity.
Qed.

Lemma digits7 : forall a w o a' w' o', 0 <= a <= 6 -> 0 <= w <= 6 -> 0 <= a' <= 6 -> 0 <= w' <= 6 -> a + 7 * w + 49 * o = a' + 7 * w' + 49 * o' -> a = a' /\ w = w' /\ o = o'.
Proof. intros. lia. Qed.

Lemma counts_nonneg : forall n P k, counts n P k -> 0 <= k.
Proof. intros n P k (l & _ & <- & _). lia. Qed.
