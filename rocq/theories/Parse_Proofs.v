(** * Proofs about the parsing helpers. *)

From Coq Require Import List ZArith QArith Bool Lia Lqa Arith.
From Verif Require Import Prelude PreludeFacts SpecBase SpecBaseFacts Parse_Model Parse_Spec.
Import ListNotations.

Set Implicit Arguments.

(** ** Masks *)

Lemma compress_length : forall A (m : list bool) (l : list A), length m = length l ->
  length (compress m l) = count_true m.
Proof.
  induction m as [|b m IH]; intros [|x l] H; simpl in *; try discriminate; auto.
  destruct b; simpl; unfold count_true in *; simpl; rewrite IH by lia; auto.
Qed.

Lemma compress_map : forall A B (f : A -> B) m l, compress m (map f l) = map f (compress m l).
Proof. induction m as [|b m IH]; intros [|x l]; simpl; auto. destruct b; simpl; rewrite IH; auto. Qed.

(** A selected position becomes the same position of every selected array. *)
Lemma compress_at : forall (m : list bool) k, nth_error m k = Some true ->
  exists j, forall A (l : list A), length l = length m -> nth_error (compress m l) j = nth_error l k.
Proof.
  induction m as [|b m IH]; intros [|k] H; simpl in H; try discriminate.
  - injection H as ->. exists O. intros A [|x l] Hl; simpl in *; [discriminate|reflexivity].
  - destruct (IH k H) as [j Hj]. exists (if b then S j else j).
    intros A [|x l] Hl; simpl in *; [discriminate|]. destruct b; simpl; apply Hj; lia.
Qed.

Lemma compress_back : forall (m : list bool) j, (j < count_true m)%nat ->
  exists k, nth_error m k = Some true /\
    forall A (l : list A), length l = length m -> nth_error (compress m l) j = nth_error l k.
Proof.
  induction m as [|b m IH]; intros j H; unfold count_true in *; simpl in H; [lia|].
  destruct b; simpl in H.
  - destruct j as [|j].
    + exists O. split; [reflexivity|]. intros A [|x l] Hl; simpl in *; [discriminate|reflexivity].
    + destruct (IH j ltac:(lia)) as [k [Hk Hj]]. exists (S k). split; [exact Hk|].
      intros A [|x l] Hl; simpl in *; [discriminate|]. apply Hj; lia.
  - destruct (IH j H) as [k [Hk Hj]]. exists (S k). split; [exact Hk|].
    intros A [|x l] Hl; simpl in *; [discriminate|]. apply Hj; lia.
Qed.

Lemma mask_assign_length : forall A m (v l : list A), length (mask_assign m v l) = length l.
Proof. induction m as [|b m IH]; intros v [|x l]; simpl; auto; destruct b; simpl; auto; destruct v; simpl; auto. Qed.

Lemma compress_assign_same : forall A m (v l : list A), length m = length l -> length v = count_true m ->
  compress m (mask_assign m v l) = v.
Proof.
  induction m as [|b m IH]; intros v [|x l] H1 H2; simpl in *; try discriminate; unfold count_true in *; simpl in *.
  - destruct v; [reflexivity|discriminate].
  - destruct b; simpl in *.
    + destruct v as [|y v]; [discriminate|]. rewrite IH; auto.
    + apply IH; auto.
Qed.

Lemma compress_assign_other : forall A m m' (v l : list A),
  (forall k, nth_error m k = Some true -> nth_error m' k = Some true -> False) ->
  compress m' (mask_assign m v l) = compress m' l.
Proof.
  induction m as [|b m IH]; intros m' v l H; simpl.
  - destruct l; reflexivity.
  - destruct m' as [|b' m']; [reflexivity|]. destruct l as [|x l]; [destruct b; reflexivity|].
    assert (H' : forall k, nth_error m k = Some true -> nth_error m' k = Some true -> False)
      by (intros k; apply (H (S k))).
    destruct b.
    + destruct b'; [exfalso; apply (H O); reflexivity|].
      destruct v as [|y v]; [reflexivity|]. simpl. apply IH; auto.
    + destruct b'; simpl; rewrite IH; auto.
Qed.

Lemma where_from_length : forall m i, length (where_from i m) = count_true m.
Proof. induction m as [|b m IH]; intros i; unfold count_true in *; simpl; auto. destruct b; simpl; rewrite IH; auto. Qed.

(** ** Zipped transitions *)

Notation ent A := (nat * nat * A * A)%type.

Section Trans.
  Variables (A : Type) (eqb : A -> A -> bool).
  Hypothesis eqb_eq : forall a b, eqb a b = true <-> a = b.

  Definition zipt (tr : trans A) : list (ent A) :=
    combine (combine (combine (tr_times tr) (tr_persons tr)) (tr_new tr)) (tr_old tr).

  Definition sized (tr : trans A) : Prop :=
    length (tr_persons tr) = length (tr_times tr) /\ length (tr_new tr) = length (tr_times tr) /\
    length (tr_old tr) = length (tr_times tr).

  Lemma combine_app : forall X Y (a a' : list X) (b b' : list Y), length a = length b ->
    combine (a ++ a') (b ++ b') = combine a b ++ combine a' b'.
  Proof. induction a; intros a' [|y b] b' H; simpl in *; try discriminate; auto. rewrite IHa by lia; auto. Qed.

  Lemma zipt_app : forall x y, sized x -> zipt (app_trans x y) = zipt x ++ zipt y.
  Proof.
    intros x y (H1 & H2 & H3). unfold zipt, app_trans; simpl.
    rewrite combine_app by lia. rewrite combine_app by (rewrite combine_length; lia).
    rewrite combine_app by (rewrite !combine_length; lia). reflexivity.
  Qed.

  Lemma sized_app : forall x y, sized x -> sized y -> sized (app_trans x y).
  Proof. intros x y (H1 & H2 & H3) (H4 & H5 & H6). unfold sized, app_trans; simpl. rewrite !app_length; lia. Qed.

  Definition moved (same : bool) (o x : A) : bool := if same then true else negb (eqb o x).

  Fixpoint ents (same : bool) (i p : nat) (old s : list A) : list (ent A) :=
    match old, s with
    | o :: old, x :: s => (if moved same o x then [(i, p, x, o)] else []) ++ ents same i (S p) old s
    | _, _ => []
    end.

  Lemma step_sized : forall same i old s, length old = length s -> sized (step_trans eqb same i old s).
  Proof.
    intros same i old s H. unfold sized, step_trans; simpl. rewrite repeat_length.
    assert (L : length (step_mask eqb same old s) = length s).
    { unfold step_mask. rewrite map2_length. lia. }
    unfold where_true. rewrite where_from_length. rewrite !compress_length by lia. auto.
  Qed.

  Lemma zipt_step_gen : forall same i old s p,
    combine (combine (combine (repeat i (count_true (step_mask eqb same old s))) (where_from p (step_mask eqb same old s)))
      (compress (step_mask eqb same old s) s)) (compress (step_mask eqb same old s) old) = ents same i p old s.
  Proof.
    induction old as [|o old IH]; intros [|x s] p; try reflexivity.
    simpl step_mask. unfold step_mask in *. simpl. change (if same then true else negb (eqb o x)) with (moved same o x).
    destruct (moved same o x); simpl; rewrite <- (IH s (S p)); reflexivity.
  Qed.

  Lemma zipt_step : forall same i old s, zipt (step_trans eqb same i old s) = ents same i 0 old s.
  Proof. intros. apply zipt_step_gen. Qed.

  Fixpoint all_ents (same : bool) (i : nat) (old : list A) (cols : list (list A)) : list (ent A) :=
    match cols with
    | [] => []
    | s :: t => ents same i 0 old s ++ all_ents same (S i) s t
    end.

  Lemma all_sized : forall same cols i old N, length old = N -> Forall (fun c => length c = N) cols ->
    sized (all_trans eqb same i old cols) /\ zipt (all_trans eqb same i old cols) = all_ents same i old cols.
  Proof.
    induction cols as [|s t IH]; intros i old N Ho Hc; simpl.
    - split; [repeat split|reflexivity].
    - inversion Hc as [|? ? Hs Ht]; subst.
      destruct (IH (S i) s (length old) Hs Ht) as [H1 H2].
      assert (H3 := @step_sized same i old s ltac:(lia)).
      split; [apply sized_app; auto|]. rewrite zipt_app, zipt_step, H2 by auto. reflexivity.
  Qed.

  (** Lines of the zipped list. *)
  Lemma zipt_line : forall tr k i p x o, sized tr ->
    (nth_error (zipt tr) k = Some (i, p, x, o) <->
     line (tr_times tr) (tr_persons tr) (tr_new tr) (tr_old tr) k i p x o).
  Proof.
    intros tr k i p x o _. unfold zipt, line, at_.
    assert (C : forall X Y (a : list X) (b : list Y) k u v,
      nth_error (combine a b) k = Some (u, v) <-> nth_error a k = Some u /\ nth_error b k = Some v).
    { induction a as [|c a IH]; intros [|d b] [|k'] u v; simpl; split;
        try (intros H; discriminate H); try (intros [? ?]; discriminate);
        try (intros H; injection H as <- <-; auto); try (intros [H1 H2]; congruence); try apply IH. }
    rewrite !C. tauto.
  Qed.

  Lemma zipt_length : forall tr, sized tr -> length (zipt tr) = length (tr_times tr).
  Proof. intros tr (H1 & H2 & H3). unfold zipt. rewrite !combine_length. lia. Qed.

  Lemma ents_in : forall same old s i p0 i' p x o,
    In (i', p, x, o) (ents same i p0 old s) <->
    i' = i /\ exists k, p = (p0 + k)%nat /\ nth_error old k = Some o /\ nth_error s k = Some x /\ moved same o x = true.
  Proof.
    induction old as [|o1 old IH]; intros [|x1 s] i p0 i' p x o; simpl.
    - split; [tauto|]. intros (_ & k & _ & H & _). destruct k; discriminate.
    - split; [tauto|]. intros (_ & k & _ & H & _). destruct k; discriminate.
    - split; [tauto|]. intros (_ & k & _ & _ & H & _). destruct k; discriminate.
    - rewrite in_app_iff, IH. split.
      + intros [H|(H1 & k & H2 & H3)].
        * destruct (moved same o1 x1) eqn:E; simpl in H; [|tauto]. destruct H as [H|[]]. injection H as <- <- <- <-.
          split; auto. exists O. simpl. repeat split; auto.
        * split; auto. exists (S k). split; [lia|]. exact H3.
      + intros (H1 & [|k] & H2 & H3 & H4 & H5); simpl in *.
        * left. injection H3 as ->. injection H4 as ->. rewrite H5. left. subst. f_equal. f_equal. f_equal. lia.
        * right. split; auto. exists k. split; [lia|auto].
  Qed.

  Lemma all_ents_in : forall same cols i0 old i p x o,
    In (i, p, x, o) (all_ents same i0 old cols) <->
    exists k s, i = (i0 + k)%nat /\ nth_error cols k = Some s /\ nth_error s p = Some x /\
      (exists s', nth_error (old :: cols) k = Some s' /\ nth_error s' p = Some o) /\ moved same o x = true.
  Proof.
    induction cols as [|s1 t IH]; intros i0 old i p x o.
    - simpl. split; [tauto|]. intros (k & s & _ & H & _). destruct k; discriminate.
    - cbn [all_ents]. rewrite in_app_iff, ents_in, IH. split.
      + intros [(H1 & k & H2 & H3 & H4 & H5)|(k & s & H1 & H2 & H3 & (s' & H4 & H5) & H6)].
        * exists O, s1. simpl in *. subst. repeat split; auto. exists old; auto.
        * exists (S k), s. repeat split; auto; [lia|]. exists s'. split; auto.
      + intros ([|k] & s & H1 & H2 & H3 & (s' & H4 & H5) & H6).
        * left. simpl in H2, H4. injection H2 as ->. injection H4 as ->. split; [lia|]. exists p. auto.
        * right. exists k, s. repeat split; auto; [lia|]. exists s'. auto.
  Qed.

  (** Order. *)
  Definition lex (a b : ent A) : Prop :=
    let '(i, p, _, _) := a in let '(i', p', _, _) := b in (i < i' \/ i = i' /\ p < p')%nat.

  Inductive incr : list (ent A) -> Prop :=
  | incr_nil : incr []
  | incr_cons : forall a l, (forall b, In b l -> lex a b) -> incr l -> incr (a :: l).

  Lemma incr_app : forall l m, incr l -> incr m -> (forall a b, In a l -> In b m -> lex a b) -> incr (l ++ m).
  Proof.
    induction l as [|a l IH]; intros m Hl Hm H; simpl; auto.
    inversion Hl; subst. constructor.
    - intros b Hb. apply in_app_iff in Hb. destruct Hb; [auto|]. apply H; auto. left; auto.
    - apply IH; auto. intros; apply H; auto. right; auto.
  Qed.

  Lemma ents_incr : forall same old s i p, incr (ents same i p old s).
  Proof.
    induction old as [|o old IH]; intros [|x s] i p; simpl; try constructor.
    apply incr_app; [destruct (moved same o x); repeat constructor; intros b []|apply IH|].
    intros a b Ha Hb. destruct (moved same o x); [|destruct Ha]. destruct Ha as [<-|[]].
    destruct b as [[[i' p'] x'] o']. apply ents_in in Hb. destruct Hb as (-> & k & -> & _). simpl. lia.
  Qed.

  Lemma all_ents_incr : forall same cols i old, incr (all_ents same i old cols).
  Proof.
    induction cols as [|s t IH]; intros i old; simpl; [constructor|].
    apply incr_app; [apply ents_incr|apply IH|].
    intros [[[i1 p1] x1] o1] [[[i2 p2] x2] o2] Ha Hb. apply ents_in in Ha. apply all_ents_in in Hb.
    destruct Ha as (-> & _). destruct Hb as (k & _ & -> & _). simpl. lia.
  Qed.

  Lemma incr_nth : forall l k k' a b, incr l -> (k < k')%nat -> nth_error l k = Some a -> nth_error l k' = Some b -> lex a b.
  Proof.
    intros l k k' a b H; revert k k'. induction H as [|c l Hc Hl IH]; intros [|k] [|k'] Hk Ha Hb; simpl in *; try discriminate; try lia.
    - injection Ha as <-. apply Hc. eapply nth_error_In; eauto.
    - apply (IH k k'); auto; lia.
  Qed.

  (** ** Columns *)

  Lemma column_at : forall (t : table A) i p, rectangular t = true -> (i < width t)%nat ->
    nth_error (column t i) p =
    match nth_error (rows t) p with Some r => nth_error r i | None => None end.
  Proof.
    intros [n rs] i p Hr Hi; unfold rectangular, column in *; simpl in *. revert p.
    induction rs as [|r rs IH]; intros p; simpl in *; [destruct p; reflexivity|].
    apply andb_true_iff in Hr. destruct Hr as [Hr1 Hr2]. apply Nat.eqb_eq in Hr1.
    destruct (nth_error r i) as [x|] eqn:E; [|apply nth_error_None in E; lia].
    simpl. destruct p; simpl; auto.
  Qed.

  Lemma column_length : forall (t : table A) i, rectangular t = true -> (i < width t)%nat ->
    length (column t i) = length (rows t).
  Proof.
    intros [n rs] i Hr Hi; unfold rectangular, column in *; simpl in *.
    induction rs as [|r rs IH]; simpl in *; auto.
    apply andb_true_iff in Hr. destruct Hr as [Hr1 Hr2]. apply Nat.eqb_eq in Hr1.
    destruct (nth_error r i) as [x|] eqn:E; [|apply nth_error_None in E; lia]. simpl; auto.
  Qed.

  Lemma columns_at : forall (t : table A) i, (i < width t)%nat -> nth_error (columns t) i = Some (column t i).
  Proof.
    intros t i Hi. unfold columns. rewrite nth_error_map.
    rewrite (nth_error_nth' _ 0%nat) by (rewrite seq_length; auto). rewrite seq_nth by auto. reflexivity.
  Qed.

  Lemma columns_length : forall (t : table A), length (columns t) = width t.
  Proof. intros; unfold columns; rewrite map_length, seq_length; auto. Qed.

  Lemma rectangular_full : forall t : table A, rectangular t = true <-> full (width t) (rows t).
  Proof.
    intros t. unfold rectangular, full. rewrite forallb_forall. split.
    - intros H p row Hp. apply Nat.eqb_eq. apply H. eapply at_in; eauto.
    - intros H r Hr. apply Nat.eqb_eq. apply in_at in Hr. destruct Hr as [p Hp]. eapply H; eauto.
  Qed.

  Lemma column_diary : forall (t : table A) i p x, rectangular t = true -> (i < width t)%nat ->
    (nth_error (column t i) p = Some x <-> diary (rows t) p i x).
  Proof.
    intros t i p x Hr Hi. rewrite column_at by auto. unfold diary, at_. split.
    - destruct (nth_error (rows t) p) as [r|]; [|discriminate]. intro H; exists r; auto.
    - intros (r & -> & H). exact H.
  Qed.

  Lemma last_col : forall (t : table A) d, (0 < width t)%nat -> last (columns t) d = column t (width t - 1).
  Proof.
    intros t d Hw. unfold columns. destruct (width t) as [|n] eqn:E; [lia|].
    rewrite seq_S, map_app. simpl. rewrite last_last. f_equal. lia.
  Qed.

  Lemma columns_Forall : forall t : table A, rectangular t = true ->
    Forall (fun c => length c = length (rows t)) (columns t).
  Proof.
    intros t Hr. apply Forall_forall. intros c Hc. unfold columns in Hc. apply in_map_iff in Hc.
    destruct Hc as (i & <- & Hi). apply in_seq in Hi. apply column_length; auto; lia.
  Qed.

  Definition old0 (ignore : bool) (t : table A) : list A :=
    if ignore then column t 0 else column t (width t - 1).

  Lemma transitions_ok : forall same ignore t, rectangular t = true -> (0 < width t)%nat ->
    states_to_transitions eqb same ignore t = Ok (all_trans eqb same 0 (old0 ignore t) (columns t)).
  Proof.
    intros same ignore t Hr Hw. unfold states_to_transitions. rewrite Hr.
    destruct (columns t) as [|c cs] eqn:E.
    - pose proof (columns_length t) as HL. rewrite E in HL. simpl in HL. lia.
    - rewrite <- E. f_equal. f_equal. unfold old0. destruct ignore.
      + pose proof (columns_at t Hw) as H. rewrite E in H. simpl in H. congruence.
      + rewrite last_col by auto. auto.
  Qed.

  Lemma old0_length : forall ignore t, rectangular t = true -> (0 < width t)%nat ->
    length (old0 ignore t) = length (rows t).
  Proof. intros ignore t Hr Hw. unfold old0. destruct ignore; apply column_length; auto; lia. Qed.

  (** Membership in terms of the diaries. *)
  Definition prev (ignore : bool) (n i : nat) : nat := match i with O => if ignore then 0 else n - 1 | S j => j end.

  Lemma trans_in : forall same ignore t i p x o, rectangular t = true -> (0 < width t)%nat ->
    (In (i, p, x, o) (all_ents same 0 (old0 ignore t) (columns t)) <->
     (i < width t)%nat /\ diary (rows t) p i x /\ diary (rows t) p (prev ignore (width t) i) o /\ moved same o x = true).
  Proof.
    intros same ignore t i p x o Hr Hw. rewrite all_ents_in. split.
    - intros (k & s & Hi & Hk & Hx & (s' & Hs' & Ho) & Hm). simpl in Hi. subst k.
      assert (Hlt : (i < width t)%nat) by (rewrite <- (columns_length t); apply nth_error_Some; congruence).
      rewrite columns_at in Hk by auto. injection Hk as <-.
      apply column_diary in Hx; auto. repeat split; auto.
      destruct i as [|j]; simpl in Hs'.
      + injection Hs' as <-. unfold old0, prev in *. destruct ignore; apply column_diary in Ho; auto; lia.
      + rewrite columns_at in Hs' by lia. injection Hs' as <-. apply column_diary in Ho; auto. lia.
    - intros (Hi & Hx & Ho & Hm). exists i, (column t i). repeat split; auto.
      + apply columns_at; auto.
      + apply column_diary; auto.
      + destruct i as [|j]; simpl in *.
        * exists (old0 ignore t). split; auto. unfold old0, prev in *. destruct ignore; apply column_diary; auto; lia.
        * exists (column t j). split; [apply columns_at; lia|]. apply column_diary; auto. lia.
  Qed.

  Lemma moved_false : forall o x, moved false o x = true <-> x <> o.
  Proof.
    intros o x. unfold moved. rewrite negb_true_iff. split; intro H.
    - intro E. subst. assert (eqb o o = true) by (apply eqb_eq; auto). congruence.
    - destruct (eqb o x) eqn:E; auto. apply eqb_eq in E. congruence.
  Qed.

  Definition exact_lines (sel : nat -> nat -> A -> A -> Prop) (tr : trans A) : Prop :=
    listing sel (tr_times tr) (tr_persons tr) (tr_new tr) (tr_old tr).

  Lemma transitions_lines : forall same ignore t sel, rectangular t = true -> (0 < width t)%nat ->
    (forall i p new old, sel i p new old <->
       (i < width t)%nat /\ diary (rows t) p i new /\ diary (rows t) p (prev ignore (width t) i) old /\ moved same old new = true) ->
    exists tr, states_to_transitions eqb same ignore t = Ok tr /\ exact_lines sel tr.
  Proof.
    intros same ignore t sel Hr Hw Hsel. rewrite transitions_ok by auto. eexists; split; [reflexivity|].
    destruct (@all_sized same (columns t) 0 (old0 ignore t) (length (rows t))) as [Hs Hz];
      [apply old0_length; auto|apply columns_Forall; auto|].
    set (tr := all_trans eqb same 0 (old0 ignore t) (columns t)) in *.
    pose proof Hs as (H1 & H2 & H3). repeat split; auto.
    - intros [k Hk]. apply Hsel. apply zipt_line in Hk; auto. apply nth_error_In in Hk.
      rewrite Hz in Hk. apply trans_in in Hk; auto.
    - intro H. apply Hsel in H. apply <- trans_in in H; auto. rewrite <- Hz in H. apply In_nth_error in H.
      destruct H as [k Hk]. exists k. apply zipt_line; auto.
    - intros k k' i i' p p' Hk Ht Ht' Hp Hp'.
      assert (G : forall k i p, at_ (tr_times tr) k i -> at_ (tr_persons tr) k p -> exists x o, nth_error (zipt tr) k = Some (i, p, x, o)).
      { intros q i1 p1 Hq Hq'. pose proof (at_lt _ _ _ _ Hq) as L.
        destruct (lt_at _ (tr_new tr) q ltac:(lia)) as [x Hx]. destruct (lt_at _ (tr_old tr) q ltac:(lia)) as [o Ho].
        exists x, o. apply zipt_line; auto. repeat split; auto. }
      destruct (G k i p Ht Hp) as (x & o & E). destruct (G k' i' p' Ht' Hp') as (x' & o' & E').
      assert (Hi : incr (zipt tr)) by (rewrite Hz; apply all_ents_incr).
      exact (incr_nth Hi Hk E E').
  Qed.

  Lemma diary_lt : forall (t : table A) p i x, rectangular t = true -> diary (rows t) p i x -> (i < width t)%nat.
  Proof.
    intros t p i x Hr (r & Hp & Hi). apply rectangular_full in Hr. rewrite <- (Hr p r Hp). eapply at_lt; eauto.
  Qed.

  Lemma transitions_exact : forall t, full (width t) (rows t) -> (0 < width t)%nat ->
    exists tr, states_to_transitions eqb false false t = Ok tr /\ exact_lines (changes (width t) (rows t)) tr.
  Proof.
    intros t Hf Hw. apply rectangular_full in Hf as Hr. apply transitions_lines; auto.
    intros i p new old. unfold changes, goes. rewrite moved_false.
    assert (E : prev false (width t) i = before (width t) i) by (destruct i; reflexivity). rewrite E.
    split; [intros [[H1 H2] H3]|intros (H0 & H1 & H2 & H3)]; repeat split; auto.
    eapply diary_lt; eauto.
  Qed.

  Lemma transitions_exact_ignore : forall t, full (width t) (rows t) -> (0 < width t)%nat ->
    exists tr, states_to_transitions eqb false true t = Ok tr /\
      exact_lines (fun i p new old => (0 < i)%nat /\ changes (width t) (rows t) i p new old) tr.
  Proof.
    intros t Hf Hw. apply rectangular_full in Hf as Hr. apply transitions_lines; auto.
    intros i p new old. unfold changes, goes. rewrite moved_false. split.
    - intros (Hi & [H1 H2] & H3). destruct i; [lia|]. simpl in *. repeat split; auto. eapply diary_lt; eauto.
    - intros (H0 & H1 & H2 & H3). destruct i as [|i]; simpl in *.
      + exfalso. apply H3. destruct H1 as (r & Hp & Hi), H2 as (r' & Hp' & Hi').
        rewrite (at_fun _ _ _ _ _ Hp' Hp) in Hi'. exact (at_fun _ _ _ _ _ Hi Hi').
      + repeat split; auto; lia.
  Qed.

  Lemma transitions_exact_same : forall t, full (width t) (rows t) -> (0 < width t)%nat ->
    exists tr, states_to_transitions eqb true false t = Ok tr /\ exact_lines (goes (width t) (rows t)) tr.
  Proof.
    intros t Hf Hw. apply rectangular_full in Hf as Hr. apply transitions_lines; auto.
    intros i p new old. unfold goes.
    assert (E : prev false (width t) i = before (width t) i) by (destruct i; reflexivity). rewrite E.
    split; [intros [H1 H2]|intros (H0 & H1 & H2 & H3)]; repeat split; auto. eapply diary_lt; eauto.
  Qed.
End Trans.
