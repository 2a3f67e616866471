(** * Proofs about the durations of the episodes. *)

From Coq Require Import List ZArith QArith Bool Lia Lqa Arith.
From Verif Require Import Prelude PreludeFacts SpecBase SpecBaseFacts Parse_Model Parse_Spec Parse_Proofs.
Import ListNotations.

Set Implicit Arguments.

(** ** Positions selected from an interval *)

Lemma filter_seq_first : forall (g : nat -> bool) m a c, nth_error (filter g (seq a m)) 0 = Some c ->
  (a <= c < a + m)%nat /\ g c = true /\ (forall i, (a <= i < c)%nat -> g i = false).
Proof.
  induction m as [|m IH]; intros a c H; simpl in H; [discriminate|].
  destruct (g a) eqn:E; simpl in H.
  - injection H as <-. repeat split; auto; intros; lia.
  - destruct (IH (S a) c H) as (H1 & H2 & H3). repeat split; auto; try lia.
    intros i Hi. destruct (Nat.eq_dec i a) as [->|]; auto. apply H3; lia.
Qed.

Lemma filter_seq_next : forall (g : nat -> bool) m a j c c',
  nth_error (filter g (seq a m)) j = Some c -> nth_error (filter g (seq a m)) (S j) = Some c' ->
  (a <= c < c')%nat /\ (c' < a + m)%nat /\ g c = true /\ g c' = true /\ (forall i, (c < i < c')%nat -> g i = false).
Proof.
  induction m as [|m IH]; intros a j c c' H H'; simpl in H, H'; [destruct j; discriminate|].
  destruct (g a) eqn:E; simpl in H, H'.
  - destruct j as [|j]; simpl in H.
    + injection H as <-. destruct (filter_seq_first _ _ _ H') as (H1 & H2 & H3).
      repeat split; auto; try lia; intros i Hi; apply H3; lia.
    + destruct (IH (S a) j c c' H H') as (H1 & H2 & H3 & H4 & H5). repeat split; auto; lia.
  - destruct (IH (S a) j c c' H H') as (H1 & H2 & H3 & H4 & H5). repeat split; auto; lia.
Qed.

Lemma filter_seq_last : forall (g : nat -> bool) m a c,
  nth_error (filter g (seq a m)) (length (filter g (seq a m)) - 1) = Some c ->
  (a <= c < a + m)%nat /\ g c = true /\ (forall i, (c < i < a + m)%nat -> g i = false).
Proof.
  induction m as [|m IH]; intros a c H; simpl in H; [discriminate|].
  destruct (g a) eqn:E; simpl in H.
  - destruct (filter g (seq (S a) m)) as [|y l] eqn:F; simpl in H.
    + injection H as <-. repeat split; auto; try lia.
      intros i Hi. destruct (g i) eqn:G; auto.
      assert (In i (filter g (seq (S a) m))) by (apply filter_In; split; auto; apply in_seq; lia).
      rewrite F in H. destruct H.
    + rewrite <- F in *. destruct (IH (S a) c) as (H1 & H2 & H3).
      * rewrite F in *. simpl in *. rewrite Nat.sub_0_r. auto.
      * repeat split; auto; try lia. intros; apply H3; lia.
  - destruct (IH (S a) c H) as (H1 & H2 & H3). repeat split; auto; try lia. intros; apply H3; lia.
Qed.

(** ** Differences between successive times *)

Lemma set_last_length : forall A (l : list A) v, l <> [] -> length (set_last l v) = length l.
Proof.
  intros A l v H. unfold set_last. rewrite app_length. simpl.
  destruct (exists_last H) as [l' [x ->]]. rewrite removelast_last, app_length; simpl; lia.
Qed.

Lemma diffs_nth : forall (l : list Z) v j, (j < length l)%nat ->
  nth_error (set_last (map2 Z.sub (roll_back l) l) v) j =
  if (S j =? length l)%nat then Some v
  else match nth_error l (S j), nth_error l j with Some b, Some a => Some (b - a)%Z | _, _ => None end.
Proof.
  intros l v j Hj.
  assert (Hrl : length (roll_back l) = length l).
  { destruct l; simpl; auto. rewrite app_length; simpl; lia. }
  assert (Hml : length (map2 Z.sub (roll_back l) l) = length l) by (rewrite map2_length; lia).
  unfold set_last.
  assert (Hd : map2 Z.sub (roll_back l) l <> []) by (intro E; rewrite E in Hml; simpl in Hml; lia).
  destruct (exists_last Hd) as [l' [x E]]. rewrite E in *. rewrite removelast_last.
  rewrite app_length in Hml. simpl in Hml.
  destruct (Nat.eqb_spec (S j) (length l)) as [Ej|Ej].
  - rewrite nth_error_app2 by lia. replace (j - length l')%nat with O by lia. reflexivity.
  - rewrite nth_error_app1 by lia.
    assert (F : nth_error (map2 Z.sub (roll_back l) l) j = nth_error l' j) by (rewrite E, nth_error_app1 by lia; auto).
    rewrite <- F, map2_nth. destruct l as [|a l]; [simpl in Hj; lia|]. simpl roll_back.
    simpl in Hj, Ej. rewrite nth_error_app1 by lia. reflexivity.
Qed.

Lemma diffs_length : forall (l : list Z) v, l <> [] -> length (set_last (map2 Z.sub (roll_back l) l) v) = length l.
Proof.
  intros l v H. assert (Hrl : length (roll_back l) = length l).
  { destruct l; simpl; auto. rewrite app_length; simpl; lia. }
  assert (Hml : length (map2 Z.sub (roll_back l) l) = length l) by (rewrite map2_length; lia).
  rewrite set_last_length; auto. intro E. rewrite E in Hml. destruct l; [congruence|discriminate].
Qed.

Lemma total_Z_app : forall l m, total_Z (l ++ m) = (total_Z l + total_Z m)%Z.
Proof. induction l; intros; unfold total_Z in *; simpl; auto. rewrite IHl; lia. Qed.

Lemma diffs_total : forall (l : list Z) a v, total_Z (set_last (map2 Z.sub (roll_back (a :: l)) (a :: l)) v) = (v + last l a - a)%Z.
Proof.
  intros l a v. unfold set_last. rewrite total_Z_app. simpl (total_Z [v]).
  enough (total_Z (removelast (map2 Z.sub (l ++ [a]) (a :: l))) = last l a - a)%Z by (simpl roll_back; lia).
  generalize a at 1 as e. revert a.
  induction l as [|b l IH]; intros a e.
  - simpl. unfold total_Z; simpl. lia.
  - change ((b :: l) ++ [e]) with (b :: (l ++ [e])).
    change (map2 Z.sub (b :: l ++ [e]) (a :: b :: l)) with ((b - a)%Z :: map2 Z.sub (l ++ [e]) (b :: l)).
    assert (Hne : map2 Z.sub (l ++ [e]) (b :: l) <> []) by (destruct l; simpl; congruence).
    destruct (map2 Z.sub (l ++ [e]) (b :: l)) as [|y q] eqn:E; [congruence|].
    change (removelast ((b - a)%Z :: y :: q)) with ((b - a)%Z :: removelast (y :: q)).
    rewrite <- E. unfold total_Z in *. simpl fold_right. rewrite IH.
    replace (last (b :: l) a) with (last l b); [lia|].
    destruct l as [|z l]; [reflexivity|]. clear. revert z. induction l as [|w l IH]; intros z; [reflexivity|]. apply (IH w).
Qed.

(** ** np.unique *)

Section UniqueFacts.
  Variables (B : Type) (cmp : B -> B -> comparison).
  Hypothesis ord : total_order cmp.

  Lemma cmp_refl : forall x, cmp x x = Eq.
  Proof. intro x. apply ord. reflexivity. Qed.

  Lemma uins_in : forall l x y, In y (uins cmp x l) <-> y = x \/ In y l.
  Proof.
    induction l as [|z l IH]; intros x y; simpl; [intuition|].
    destruct (cmp x z) eqn:E; simpl.
    - apply ord in E. subst z. intuition.
    - intuition.
    - rewrite IH. intuition.
  Qed.

  Lemma uniq_in : forall l x, In x (uniq cmp l) <-> In x l.
  Proof. induction l as [|z l IH]; intros x; simpl; [tauto|]. unfold uniq in *. simpl. rewrite uins_in, IH. intuition. Qed.

  Inductive sorted : list B -> Prop :=
  | sorted_nil : sorted []
  | sorted_cons : forall x l, (forall y, In y l -> cmp x y = Lt) -> sorted l -> sorted (x :: l).

  Lemma uins_sorted : forall l x, sorted l -> sorted (uins cmp x l).
  Proof.
    destruct ord as (O1 & O2 & O3).
    induction l as [|z l IH]; intros x H; simpl; [constructor; [intros y []|auto]|].
    inversion H as [|? ? Hz Hl]; subst. destruct (cmp x z) eqn:E; auto.
    - constructor; auto. intros y [<-|Hy]; auto. apply (O3 x z y); auto.
    - constructor; auto. intros y Hy. apply uins_in in Hy. destruct Hy as [->|Hy]; auto.
      rewrite O2, E. reflexivity.
  Qed.

  Lemma uniq_sorted : forall l, sorted (uniq cmp l).
  Proof. induction l as [|z l IH]; [constructor|]. unfold uniq in *. simpl. apply uins_sorted; auto. Qed.

  Lemma sorted_nodup : forall l, sorted l -> NoDup l.
  Proof.
    induction 1 as [|x l Hx Hl IH]; constructor; auto. intro Hin. apply Hx in Hin. rewrite cmp_refl in Hin. discriminate.
  Qed.

  Lemma uniq_nodup : forall l, NoDup (uniq cmp l).
  Proof. intro l. apply sorted_nodup, uniq_sorted. Qed.

  Lemma is_eq_iff : forall x y, is_eq cmp x y = true <-> x = y.
  Proof.
    intros x y. unfold is_eq. destruct ord as (O1 & _). specialize (O1 x y).
    destruct (cmp x y); split; intro H; try discriminate; try tauto; try (apply O1 in H; discriminate).
  Qed.

  Lemma index_in_at : forall l x, In x l -> nth_error l (index_in cmp x l) = Some x.
  Proof.
    induction l as [|y l IH]; intros x H; simpl in *; [tauto|].
    destruct (is_eq cmp x y) eqn:E; simpl.
    - apply is_eq_iff in E. congruence.
    - destruct H as [->|H]; auto. assert (is_eq cmp x x = true) by (apply is_eq_iff; auto). congruence.
  Qed.

  Lemma sorted_nth : forall l i j x y, sorted l -> (i < j)%nat -> nth_error l i = Some x -> nth_error l j = Some y -> cmp x y = Lt.
  Proof.
    intros l i j x y H; revert i j. induction H as [|z l Hz Hl IH]; intros [|i] [|j] Hij Hi Hj; simpl in *; try discriminate; try lia.
    - injection Hi as <-. apply Hz. eapply nth_error_In; eauto.
    - apply (IH i j); auto; lia.
  Qed.
End UniqueFacts.

Lemma nat_order : total_order Nat.compare.
Proof.
  repeat split; intros.
  - apply Nat.compare_eq_iff; auto.
  - subst; apply Nat.compare_refl.
  - apply Nat.compare_antisym.
  - apply Nat.compare_lt_iff in H, H0. apply Nat.compare_lt_iff. lia.
Qed.

Lemma pair_order : forall A B (ca : A -> A -> comparison) (cb : B -> B -> comparison),
  total_order ca -> total_order cb -> total_order (cmp_pair ca cb).
Proof.
  intros A B ca cb (A1 & A2 & A3) (B1 & B2 & B3). unfold cmp_pair. repeat split.
  - destruct x as [a b], y as [a' b']; simpl. destruct (ca a a') eqn:E; try discriminate.
    intro H. apply A1 in E. apply B1 in H. congruence.
  - intro H; subst y. destruct x as [a b]; simpl.
    replace (ca a a) with Eq by (symmetry; apply A1; auto). apply B1; auto.
  - destruct x as [a b], y as [a' b']; simpl. rewrite A2. destruct (ca a a') eqn:E; simpl; auto.
  - destruct x as [a b], y as [a' b'], z as [a'' b'']; simpl. intros H1 H2.
    destruct (ca a a') eqn:E1; try discriminate; destruct (ca a' a'') eqn:E2; try discriminate.
    + apply A1 in E1, E2. subst. replace (ca a'' a'') with Eq by (symmetry; apply A1; auto). eapply B3; eauto.
    + apply A1 in E1. subst. rewrite E2. auto.
    + apply A1 in E2. subst. rewrite E1. auto.
    + rewrite (A3 _ _ _ E1 E2). auto.
Qed.

Section Dur.
  Variables (A : Type) (eqb : A -> A -> bool).
  Hypothesis eqb_eq : forall a b, eqb a b = true <-> a = b.

  Definition person_of (e : ent A) : nat := let '(_, p, _, _) := e in p.
  Definition time_of (e : ent A) : nat := let '(i, _, _, _) := e in i.
  Definition new_of (e : ent A) : A := let '(_, _, x, _) := e in x.
  Definition old_of (e : ent A) : A := let '(_, _, _, o) := e in o.

  Lemma compress_zip : forall (ts ps : list nat) (ns os : list A) p,
    length ps = length ts -> length ns = length ts -> length os = length ts ->
    let F := filter (fun e => Nat.eqb p (person_of e)) (combine (combine (combine ts ps) ns) os) in
    compress (map (Nat.eqb p) ps) ts = map time_of F /\
    compress (map (Nat.eqb p) ps) ns = map new_of F /\
    compress (map (Nat.eqb p) ps) os = map old_of F.
  Proof.
    induction ts as [|t ts IH]; intros [|q ps] [|x ns] [|o os] p H1 H2 H3; simpl in *; try discriminate; auto.
    destruct (IH ps ns os p) as (E1 & E2 & E3); try lia.
    destruct (Nat.eqb p q) eqn:E; simpl; rewrite E1, E2, E3; auto.
  Qed.

  Lemma ents_person : forall same old s i p0 p, (p0 <= p)%nat ->
    filter (fun e => Nat.eqb p (person_of e)) (ents eqb same i p0 old s) =
    match nth_error old (p - p0), nth_error s (p - p0) with
    | Some o, Some x => if moved eqb same o x then [(i, p, x, o)] else []
    | _, _ => []
    end.
  Proof.
    assert (Z0 : forall same old s i p0 p, (p < p0)%nat ->
      filter (fun e => Nat.eqb p (person_of e)) (ents eqb same i p0 old s) = []).
    { induction old as [|o old IH]; intros [|x s] i p0 p H; simpl; auto.
      rewrite filter_app. rewrite (IH s i (S p0) p) by lia. destruct (moved eqb same o x); simpl; auto.
      destruct (Nat.eqb_spec p p0); [lia|auto]. }
    induction old as [|o old IH]; intros [|x s] i p0 p H; simpl.
    - destruct (p - p0)%nat; reflexivity.
    - destruct (p - p0)%nat; reflexivity.
    - destruct (p - p0)%nat as [|k]; simpl; [reflexivity|]. destruct (nth_error old k); reflexivity.
    - rewrite filter_app. destruct (Nat.eq_dec p p0) as [->|Hne].
      + rewrite Z0 by lia. rewrite Nat.sub_diag, app_nil_r. simpl. destruct (moved eqb same o x); simpl; auto.
        rewrite Nat.eqb_refl; auto.
      + rewrite IH by lia. replace (p - p0)%nat with (S (p - S p0)) by lia. simpl.
        destruct (moved eqb same o x); simpl; auto. destruct (Nat.eqb_spec p p0); [lia|auto].
  Qed.

  Section Person.
    Variables (t : table A) (p : nat) (r : list A) (d : A) (ignore : bool).
    Hypothesis Hr : rectangular t = true.
    Hypothesis Hp : at_ (rows t) p r.

    Definition st (i : nat) : A := nth i r d.
    Definition pv (i : nat) : nat := prev ignore (width t) i.
    Definition chg (i : nat) : bool := moved eqb false (st (pv i)) (st i).
    Definition changes_of : list nat := filter chg (seq 0 (width t)).

    Lemma row_length : length r = width t.
    Proof. apply rectangular_full in Hr. eapply Hr; eauto. Qed.

    Lemma row_at : forall i, (i < width t)%nat -> nth_error r i = Some (st i).
    Proof. intros i Hi. unfold st. apply nth_error_nth'. rewrite row_length; auto. Qed.

    Lemma col_at : forall i, (i < width t)%nat -> nth_error (column t i) p = Some (st i).
    Proof. intros i Hi. rewrite column_at by auto. unfold at_ in Hp. rewrite Hp. apply row_at; auto. Qed.

    Lemma person_ents : forall m i0 old, (i0 + m <= width t)%nat -> nth_error old p = Some (st (pv i0)) ->
      filter (fun e => Nat.eqb p (person_of e)) (all_ents eqb false i0 old (map (column t) (seq i0 m))) =
      map (fun i => (i, p, st i, st (pv i))) (filter chg (seq i0 m)).
    Proof.
      induction m as [|m IH]; intros i0 old Hm Ho; [reflexivity|].
      simpl seq. cbn [map all_ents]. rewrite filter_app, ents_person by lia. rewrite Nat.sub_0_r, Ho.
      rewrite col_at by lia. cbn [filter]. unfold chg at 1.
      rewrite IH; [|lia|simpl; apply col_at; lia].
      fold (pv i0). destruct (moved eqb false (st (pv i0)) (st i0)); reflexivity.
    Qed.

    Lemma person_lists : forall tr, (0 < width t)%nat -> states_to_transitions eqb false ignore t = Ok tr ->
      compress (person_mask tr p) (tr_times tr) = changes_of /\
      compress (person_mask tr p) (tr_new tr) = map st changes_of /\
      compress (person_mask tr p) (tr_old tr) = map (fun i => st (pv i)) changes_of.
    Proof.
      intros tr Hw H. rewrite transitions_ok in H by auto. injection H as <-.
      destruct (@all_sized A eqb false (columns t) 0 (old0 ignore t) (length (rows t))) as [Hs Hz];
        [apply old0_length; auto|apply columns_Forall; auto|].
      set (tr := all_trans eqb false 0 (old0 ignore t) (columns t)) in *.
      destruct Hs as (H1 & H2 & H3).
      destruct (compress_zip (tr_times tr) (tr_persons tr) (tr_new tr) (tr_old tr) p H1 H2 H3) as (E1 & E2 & E3).
      unfold person_mask. rewrite E1, E2, E3. change (combine _ _) with (zipt tr). rewrite Hz.
      unfold columns. rewrite person_ents; [|lia|].
      - unfold changes_of. rewrite !map_map. simpl. rewrite map_id. auto.
      - unfold old0, pv, prev. destruct ignore; apply col_at; lia.
    Qed.

    (** No change between [a] and [b]: the state is constant. *)
    Lemma const_run : forall a j, (a + j < width t)%nat -> (forall i, (a < i <= a + j)%nat -> chg i = false) ->
      st (a + j) = st a.
    Proof.
      intros a j. induction j as [|j IH]; intros Hb Hc; [f_equal; lia|].
      rewrite <- IH by (try lia; intros; apply Hc; lia).
      assert (E : chg (a + S j) = false) by (apply Hc; lia).
      unfold chg, moved, pv, prev in E. replace (a + S j)%nat with (S (a + j)) in * by lia.
      apply negb_false_iff, eqb_eq in E. auto.
    Qed.

    Lemma diary_st : forall i x, (i < width t)%nat -> (diary (rows t) p i x <-> x = st i).
    Proof.
      intros i x Hi. split.
      - intros (r' & Hp' & Hx). rewrite (at_fun _ _ _ _ _ Hp' Hp) in Hx. unfold at_ in Hx. rewrite row_at in Hx by auto. congruence.
      - intros ->. exists r. split; auto. apply row_at; auto.
    Qed.

    Lemma chg_true : forall i, chg i = true -> st i <> st (pv i).
    Proof. intros i H. apply (moved_false eqb eqb_eq) in H. auto. Qed.

    (** Episode between two consecutive changes. *)
    Lemma run_inner : forall c c', (c < c' < width t)%nat -> chg c' = true ->
      (forall i, (c < i < c')%nat -> chg i = false) ->
      lasts (width t) (rows t) p c (st c) (Z.of_nat c' - Z.of_nat c)%Z.
    Proof.
      intros c c' Hc Hch Hn. split; [lia|]. split.
      - intros j Hj. rewrite Nat.mod_small by lia. apply diary_st; [lia|]. symmetry. apply const_run; [lia|].
        intros; apply Hn; lia.
      - replace (c + Z.to_nat (Z.of_nat c' - Z.of_nat c))%nat with c' by lia.
        rewrite Nat.mod_small by lia. rewrite diary_st by lia.
        intro E. apply (chg_true _ Hch). rewrite <- E. unfold pv, prev. destruct c' as [|k]; [lia|].
        replace k with (c + (k - c))%nat at 1 by lia. symmetry. apply const_run; [lia|]. intros; apply Hn; lia.
    Qed.

    (** Episode that goes on after midnight until the first change. *)
    Lemma run_wrap : forall c0 cl, (c0 <= cl < width t)%nat -> chg c0 = true ->
      (forall i, (i < c0)%nat -> chg i = false) -> (forall i, (cl < i < width t)%nat -> chg i = false) ->
      (ignore = true -> st 0 = st (width t - 1)) ->
      lasts (width t) (rows t) p cl (st cl) (Z.of_nat c0 + (Z.of_nat (width t) - Z.of_nat cl))%Z.
    Proof.
      intros c0 cl Hc H0 Hb Ha Hig. set (n := width t) in *.
      assert (Hend : st (n - 1) = st cl).
      { replace (n - 1)%nat with (cl + (n - 1 - cl))%nat by lia. apply const_run; [fold n; lia|].
        intros i Hi. apply Ha. lia. }
      assert (Hstart : (0 < c0)%nat -> st 0 = st cl).
      { intro Hc0. destruct ignore eqn:Ei; [rewrite Hig by auto; auto|].
        assert (E : chg 0 = false) by (apply Hb; lia). unfold chg, moved, pv, prev in E. rewrite Ei in E. fold n in E.
        apply negb_false_iff, eqb_eq in E. congruence. }
      assert (Hbefore : forall i, (i < c0)%nat -> st i = st cl).
      { intros i Hi. rewrite <- Hstart by lia. change i with (0 + i)%nat. apply const_run; [fold n; lia|].
        intros k Hk; apply Hb; lia. }
      split; [lia|]. split.
      - intros j Hj. destruct (le_lt_dec n (cl + j)) as [Hge|Hlt].
        + replace (cl + j)%nat with ((cl + j - n) + 1 * n)%nat by lia. rewrite Nat.mod_add by lia.
          rewrite Nat.mod_small by lia. apply diary_st; [fold n; lia|]. symmetry; apply Hbefore; lia.
        + rewrite Nat.mod_small by lia. apply diary_st; [fold n; lia|]. symmetry. apply const_run; [fold n; lia|].
          intros i Hi; apply Ha; lia.
      - replace (cl + Z.to_nat (Z.of_nat c0 + (Z.of_nat n - Z.of_nat cl)))%nat with (c0 + 1 * n)%nat by lia.
        rewrite Nat.mod_add by lia. rewrite Nat.mod_small by lia. rewrite diary_st by (fold n; lia).
        intro E. apply (chg_true _ H0). rewrite <- E. unfold pv, prev. destruct c0 as [|k].
        + destruct ignore eqn:Ei; [|fold n; auto]. symmetry; rewrite Hig by auto. auto.
        + symmetry. apply Hbefore. lia.
    Qed.

    Lemma st_first_last : forall c0 cl, (c0 <= cl < width t)%nat -> chg c0 = true ->
      (forall i, (i < c0)%nat -> chg i = false) -> (forall i, (cl < i < width t)%nat -> chg i = false) ->
      st cl = st (width t - 1) /\ st (pv c0) = (if ignore then st 0 else st (width t - 1)).
    Proof.
      intros c0 cl Hc H0 Hb Ha. split.
      - symmetry. replace (width t - 1)%nat with (cl + (width t - 1 - cl))%nat by lia. apply const_run; [lia|].
        intros i Hi. apply Ha. lia.
      - unfold pv, prev. destruct c0 as [|k]; [destruct ignore; auto|].
        assert (E : st k = st 0). { change k with (0 + k)%nat at 1. apply const_run; [lia|]. intros; apply Hb; lia. }
        destruct ignore eqn:Ei; auto.
        assert (E0 : chg 0 = false) by (apply Hb; lia). unfold chg, moved, pv, prev in E0. rewrite Ei in E0.
        apply negb_false_iff, eqb_eq in E0. congruence.
    Qed.

    (** The durations of one person. *)
    Lemma person_durations_spec : forall tr, (0 < width t)%nat -> states_to_transitions eqb false ignore t = Ok tr ->
      changes_of <> [] ->
      exists ds, person_durations eqb ignore (width t) tr p = Ok ds /\ length ds = length changes_of /\
        ((ignore = false \/ st 0 = st (width t - 1)) -> total_Z ds = Z.of_nat (width t)) /\
        (forall j c dj, nth_error changes_of j = Some c -> nth_error ds j = Some dj ->
          ((S j < length changes_of)%nat \/ ignore = false \/ st 0 = st (width t - 1) ->
             lasts (width t) (rows t) p c (st c) dj) /\
          (S j = length changes_of -> ignore = true -> st 0 <> st (width t - 1) -> dj = 0%Z)).
    Proof.
      intros tr Hw Htr Hne. destruct (person_lists Hw Htr) as (E1 & E2 & E3).
      unfold person_durations. rewrite E1, E2, E3.
      set (C := changes_of) in *.
      assert (HC : C = filter chg (seq 0 (width t))) by reflexivity.
      destruct C as [|c0 C'] eqn:EC; [congruence|]. rewrite <- EC in *.
      assert (L0 : nth_error C 0 = Some c0) by (rewrite EC; reflexivity).
      destruct (exists_last Hne) as [C'' [cl El]].
      assert (Ll : nth_error C (length C - 1) = Some cl).
      { rewrite El, app_length, nth_error_app2 by (simpl; lia). simpl. replace (_ - _)%nat with O by lia. reflexivity. }
      assert (F0 := L0). assert (Fl := Ll). rewrite HC in F0, Fl.
      apply filter_seq_first in F0. apply filter_seq_last in Fl.
      destruct F0 as (B0 & T0 & N0). destruct Fl as (Bl & Tl & Nl). cbn [Nat.add] in B0, Bl, Nl.
      assert (Hle : (c0 <= cl)%nat).
      { destruct (le_lt_dec c0 cl); auto. exfalso. rewrite N0 in Tl; [discriminate|lia]. }
      destruct (@st_first_last c0 cl) as [S1 S2]; auto; try lia; try (intros; apply N0; lia); try (intros; apply Nl; lia).
      assert (Hrev : rev (map Z.of_nat C) = Z.of_nat cl :: rev (map Z.of_nat C'')).
      { rewrite El, map_app, rev_app_distr. reflexivity. }
      assert (Hrev2 : rev (map st C) = st cl :: rev (map st C'')).
      { rewrite El, map_app, rev_app_distr. reflexivity. }
      assert (Hm1 : map Z.of_nat C = Z.of_nat c0 :: map Z.of_nat C') by (rewrite EC; reflexivity).
      assert (Hm2 : map (fun i => st (pv i)) C = st (pv c0) :: map (fun i => st (pv i)) C') by (rewrite EC; reflexivity).
      rewrite Hm1 in Hrev. rewrite Hm1, Hrev, Hrev2, Hm2. rewrite <- Hm1.
      eexists. split; [reflexivity|].
      assert (HnC : map Z.of_nat C <> []) by (rewrite Hm1; discriminate).
      split; [rewrite diffs_length by auto; apply map_length|].
      set (v := if eqb _ _ then _ else _).
      assert (Hv : (ignore = false \/ st 0 = st (width t - 1)) -> v = (Z.of_nat c0 + (Z.of_nat (width t) - Z.of_nat cl))%Z).
      { intro H. unfold v. replace (eqb (st (pv c0)) (st cl)) with true; auto. symmetry. apply eqb_eq.
        rewrite S1, S2. destruct ignore; auto. destruct H; [discriminate|auto]. }
      split.
      - intro H. rewrite Hm1, diffs_total.
        assert (Hlast : last (map Z.of_nat C') (Z.of_nat c0) = Z.of_nat cl).
        { assert (G : last (map Z.of_nat C) 0%Z = Z.of_nat cl) by (rewrite El, map_app; simpl; apply last_last).
          rewrite EC in G. simpl in G. destruct C' as [|y C']; simpl in *; auto.
          rewrite <- G. clear. generalize (Z.of_nat y) as z. induction (map Z.of_nat C') as [|w l IH]; intros z; [reflexivity|]. apply (IH w). }
        rewrite Hlast, Hv by auto. lia.
      - intros j c dj Hj Hd. assert (Lj : (j < length C)%nat) by (apply nth_error_Some; congruence).
        rewrite diffs_nth in Hd by (rewrite map_length; auto). rewrite map_length in Hd.
        destruct (Nat.eqb_spec (S j) (length C)) as [Ej|Ej].
        + injection Hd as <-. assert (c = cl) by (replace j with (length C - 1)%nat in Hj by lia; congruence). subst c.
          split.
          * intros [H|H]; [lia|]. rewrite Hv by auto. apply run_wrap; auto; try lia; try (intros; apply N0; lia); try (intros; apply Nl; lia).
            intro Hi. destruct H; [congruence|auto].
          * intros _ Hi Hs. unfold v. rewrite Hi in *. destruct (eqb (st (pv c0)) (st cl)) eqn:Eq; auto.
            apply eqb_eq in Eq. congruence.
        + split; [intros _|lia].
          rewrite !nth_error_map in Hd. rewrite Hj in Hd. destruct (nth_error C (S j)) as [c'|] eqn:Ec'; simpl in Hd; [|discriminate].
          injection Hd as <-. rewrite HC in Hj, Ec'. destruct (filter_seq_next _ _ _ _ Hj Ec') as (G1 & G2 & G3 & G4 & G5).
          apply run_inner; auto. simpl in G2. lia.
    Qed.
  End Person.

  (** ** Assembling the array of durations *)

  Lemma all_durations_spec : forall ignore n (tr : trans A) ps acc,
    NoDup ps -> length acc = length (tr_persons tr) ->
    (forall p, In p ps -> exists d, person_durations eqb ignore n tr p = Ok d /\ length d = count_true (person_mask tr p)) ->
    exists out, all_durations eqb ignore n tr ps acc = Ok out /\ length out = length acc /\
      (forall p, In p ps -> person_durations eqb ignore n tr p = Ok (compress (person_mask tr p) out)) /\
      (forall p, ~ In p ps -> compress (person_mask tr p) out = compress (person_mask tr p) acc).
  Proof.
    induction ps as [|p ps IH]; intros acc Hnd Hl Hd.
    - simpl. exists acc. repeat split; auto. intros p [].
    - inversion Hnd as [|? ? Hni Hnd']; subst. destruct (Hd p ltac:(left; auto)) as (d & Ed & Ld).
      simpl. rewrite Ed. simpl.
      destruct (IH (mask_assign (person_mask tr p) d acc)) as (out & Eo & Lo & H1 & H2); auto.
      { rewrite mask_assign_length; auto. } { intros; apply Hd; right; auto. }
      exists out. rewrite mask_assign_length in Lo. repeat split; auto.
      + intros q [<-|Hq].
        * rewrite Ed. f_equal. rewrite H2 by auto. rewrite compress_assign_same; auto.
          unfold person_mask. rewrite map_length; auto.
        * apply H1; auto.
      + intros q Hq. rewrite H2 by (intro; apply Hq; right; auto). apply compress_assign_other.
        unfold person_mask. intros k Hk Hk'. rewrite nth_error_map in Hk, Hk'.
        destruct (nth_error (tr_persons tr) k) as [z|]; simpl in *; [|discriminate].
        injection Hk as Hk. injection Hk' as Hk'. apply Nat.eqb_eq in Hk, Hk'. apply Hq. left. lia.
  Qed.

  Lemma uniq_persons : forall l, NoDup (uniq Nat.compare l) /\ (forall x, In x (uniq Nat.compare l) <-> In x l).
  Proof. intro l. split; [apply uniq_nodup|intro x; apply uniq_in]; apply nat_order. Qed.

  Lemma of_person_compress : forall B (persons : list nat) (l : list B) p,
    of_person persons l p = compress (map (Nat.eqb p) persons) l.
  Proof.
    unfold of_person. induction persons as [|q ps IH]; intros [|x l] p; simpl; auto.
    rewrite (Nat.eqb_sym q p). destruct (p =? q)%nat; simpl; rewrite IH; auto.
  Qed.

  Lemma exact_line_person : forall ignore t tr p, rectangular t = true -> (0 < width t)%nat ->
    states_to_transitions eqb false ignore t = Ok tr -> In p (tr_persons tr) ->
    exists r d, at_ (rows t) p r /\ changes_of t r d ignore <> [] /\ nth_error r 0 = Some d.
  Proof.
    intros ignore t tr p Hr Hw Htr Hin.
    pose proof Htr as Htr'. rewrite transitions_ok in Htr by auto. injection Htr as Htr.
    destruct (@all_sized A eqb false (columns t) 0 (old0 ignore t) (length (rows t))) as [Hs Hz];
      [apply old0_length; auto|apply columns_Forall; auto|].
    rewrite Htr in *. apply In_nth_error in Hin. destruct Hin as [k Hk].
    pose proof Hs as (H1 & H2 & H3). pose proof (at_lt _ _ _ _ Hk) as L.
    destruct (lt_at _ (tr_times tr) k ltac:(lia)) as [i Hi]. destruct (lt_at _ (tr_new tr) k ltac:(lia)) as [x Hx].
    destruct (lt_at _ (tr_old tr) k ltac:(lia)) as [o Ho].
    assert (Hline : line (tr_times tr) (tr_persons tr) (tr_new tr) (tr_old tr) k i p x o) by (repeat split; auto).
    apply zipt_line in Hline; auto. apply nth_error_In in Hline. rewrite Hz in Hline.
    apply trans_in in Hline; auto. destruct Hline as (_ & (r & Hp & _) & _).
    assert (Lr : length r = width t) by (apply rectangular_full in Hr; eapply Hr; eauto).
    destruct r as [|d r]; [simpl in Lr; lia|]. exists (d :: r), d. repeat split; auto.
    destruct (@person_lists t p (d :: r) d ignore Hr Hp tr Hw Htr') as (E1 & _).
    rewrite <- E1. intro E. assert (count_true (person_mask tr p) = 0)%nat.
    { rewrite <- (compress_length (person_mask tr p) (tr_times tr)), E; auto. unfold person_mask. rewrite map_length; auto. }
    assert (Hm : nth_error (person_mask tr p) k = Some true).
    { unfold person_mask. rewrite nth_error_map. unfold at_ in Hk. rewrite Hk. simpl. rewrite Nat.eqb_refl; auto. }
    destruct (compress_at _ _ Hm) as [j Hj]. specialize (Hj nat (tr_times tr)).
    rewrite E in Hj. unfold at_ in Hi. rewrite Hi in Hj. destruct j; simpl in Hj; discriminate Hj; unfold person_mask; rewrite map_length; auto.
  Qed.

  Lemma durations_spec : forall ignore t, full (width t) (rows t) -> (0 < width t)%nat ->
    exists tr ds, states_to_transitions_durations eqb false ignore t = Ok (tr, ds) /\
      states_to_transitions eqb false ignore t = Ok tr /\
      length ds = length (tr_times tr) /\
      (forall k i p new old d, line (tr_times tr) (tr_persons tr) (tr_new tr) (tr_old tr) k i p new old -> at_ ds k d ->
        ((ignore = false \/ (exists k' i' new' old', (k < k')%nat /\ line (tr_times tr) (tr_persons tr) (tr_new tr) (tr_old tr) k' i' p new' old') \/
          (exists x, diary (rows t) p 0 x /\ diary (rows t) p (width t - 1) x)) ->
           lasts (width t) (rows t) p i new d) /\
        (ignore = true -> ~ (exists k' i' new' old', (k < k')%nat /\ line (tr_times tr) (tr_persons tr) (tr_new tr) (tr_old tr) k' i' p new' old') ->
          ~ (exists x, diary (rows t) p 0 x /\ diary (rows t) p (width t - 1) x) -> d = 0%Z)) /\
      (forall p, In p (tr_persons tr) ->
        (ignore = false \/ (exists x, diary (rows t) p 0 x /\ diary (rows t) p (width t - 1) x)) ->
        total_Z (of_person (tr_persons tr) ds p) = Z.of_nat (width t)).
  Proof.
    intros ignore t Hf Hw. apply rectangular_full in Hf as Hr.
    pose proof (transitions_ok eqb false ignore t Hr Hw) as Htr.
    destruct (@all_sized A eqb false (columns t) 0 (old0 ignore t) (length (rows t))) as [Hs _];
      [apply old0_length; auto|apply columns_Forall; auto|].
    set (tr := all_trans eqb false 0 (old0 ignore t) (columns t)) in *.
    pose proof Hs as (L1 & L2 & L3).
    assert (Hps : forall p, In p (tr_persons tr) -> exists ds r d,
      person_durations eqb ignore (width t) tr p = Ok ds /\ length ds = count_true (person_mask tr p) /\
      at_ (rows t) p r /\ changes_of t r d ignore <> []).
    { intros p Hp. destruct (@exact_line_person ignore t tr p Hr Hw Htr Hp) as (r & d & Hrow & Hne & _).
      destruct (@person_durations_spec t p r d ignore Hr Hrow tr Hw Htr Hne) as (ds & E & El & _).
      exists ds, r, d. repeat split; auto.
      destruct (@person_lists t p r d ignore Hr Hrow tr Hw Htr) as (E1 & _).
      rewrite El, <- E1. apply compress_length. unfold person_mask; rewrite map_length; auto. }
    destruct (uniq_persons (tr_persons tr)) as [Hnd Hin].
    destruct (@all_durations_spec ignore (width t) tr (uniq Nat.compare (tr_persons tr)) (repeat 0%Z (length (tr_times tr)))) as (out & E & Lo & H1 & _).
    { auto. } { rewrite repeat_length; auto. }
    { intros p Hp. apply Hin in Hp. destruct (Hps p Hp) as (ds & r & d & G1 & G2 & _). eauto. }
    rewrite repeat_length in Lo.
    exists tr, out. unfold states_to_transitions_durations. rewrite Htr. simpl. unfold durations. rewrite E. simpl.
    split; [reflexivity|]. split; [reflexivity|]. split; [auto|].
    assert (Hst : forall p r d, at_ (rows t) p r ->
      ((exists x, diary (rows t) p 0 x /\ diary (rows t) p (width t - 1) x) <-> st r d 0 = st r d (width t - 1))).
    { intros p r d Hrow. split.
      - intros (x & Hx1 & Hx2). apply (@diary_st t p r d Hr Hrow) in Hx1; [|lia]. apply (@diary_st t p r d Hr Hrow) in Hx2; [|lia]. congruence.
      - intro Hq. exists (st r d 0). split; apply (@diary_st t p r d Hr Hrow); auto; lia. }
    split.
    - intros k i p new old dk Hline Hdk.
      destruct Hline as (Hi & Hp & Hx & Ho).
      assert (Hpin : In p (tr_persons tr)) by (eapply at_in; eauto).
      destruct (Hps p Hpin) as (ds & r & d & Epd & _ & Hrow & Hne).
      pose proof (H1 p ltac:(apply Hin; auto)) as Ec. rewrite Epd in Ec. injection Ec as Ec.
      destruct (@person_durations_spec t p r d ignore Hr Hrow tr Hw Htr Hne) as (ds' & E' & El & _ & Hruns).
      rewrite Epd in E'. injection E' as <-.
      destruct (@person_lists t p r d ignore Hr Hrow tr Hw Htr) as (E1 & E2 & E3).
      assert (Hm : nth_error (person_mask tr p) k = Some true).
      { unfold person_mask. rewrite nth_error_map. unfold at_ in Hp. rewrite Hp. simpl. rewrite Nat.eqb_refl; auto. }
      assert (Lm : length (person_mask tr p) = length (tr_times tr)) by (unfold person_mask; rewrite map_length; auto).
      destruct (compress_at _ _ Hm) as [j Hj].
      assert (J1 : nth_error (changes_of t r d ignore) j = Some i) by (rewrite <- E1, Hj by auto; exact Hi).
      assert (J2 : nth_error (map (st r d) (changes_of t r d ignore)) j = Some new) by (rewrite <- E2, Hj by lia; exact Hx).
      assert (J3 : nth_error ds j = Some dk) by (rewrite Ec, Hj by lia; exact Hdk).
      rewrite nth_error_map, J1 in J2. simpl in J2. injection J2 as J2.
      destruct (Hruns j i dk J1 J3) as [R1 R2]. rewrite J2 in R1.
      assert (Hlater : (exists k' i' new' old', (k < k')%nat /\ line (tr_times tr) (tr_persons tr) (tr_new tr) (tr_old tr) k' i' p new' old') <->
        (S j < length (changes_of t r d ignore))%nat).
      { destruct (@transitions_lines A eqb false ignore t (fun i p new old => (i < width t)%nat /\ diary (rows t) p i new /\ diary (rows t) p (prev ignore (width t) i) old /\ moved eqb false old new = true) Hr Hw ltac:(intros; reflexivity)) as (tr0 & Et & _ & _ & _ & _ & Hlex).
        rewrite Htr in Et. injection Et as <-. split.
        - intros (k' & i' & new' & old' & Hk' & Hi' & Hp' & _).
          assert (Hm' : nth_error (person_mask tr p) k' = Some true).
          { unfold person_mask. rewrite nth_error_map. unfold at_ in Hp'. rewrite Hp'. simpl. rewrite Nat.eqb_refl; auto. }
          destruct (compress_at _ _ Hm') as [j' Hj'].
          assert (J1' : nth_error (changes_of t r d ignore) j' = Some i') by (rewrite <- E1, Hj' by auto; exact Hi').
          assert (Hlt : (i < i')%nat) by (destruct (Hlex k k' i i' p p Hk' Hi Hi' Hp Hp'); lia).
          assert (Lj' : (j' < length (changes_of t r d ignore))%nat) by (apply nth_error_Some; congruence).
          destruct (le_lt_dec (length (changes_of t r d ignore)) (S j)) as [Hge|]; auto. exfalso.
          assert (Lj : (j < length (changes_of t r d ignore))%nat) by (apply nth_error_Some; congruence).
          assert (Fl : nth_error (changes_of t r d ignore) (length (changes_of t r d ignore) - 1) = Some i)
            by (replace (length (changes_of t r d ignore) - 1)%nat with j by lia; auto).
          unfold changes_of in Fl. apply filter_seq_last in Fl. destruct Fl as (_ & _ & Fl).
          apply nth_error_In in J1'. unfold changes_of in J1'. apply filter_In in J1'. destruct J1' as [Ji' Jc'].
          apply in_seq in Ji'. rewrite Fl in Jc' by lia. discriminate.
        - intro Hsj. destruct (nth_error (changes_of t r d ignore) (S j)) as [i'|] eqn:Ei'; [|apply nth_error_None in Ei'; lia].
          assert (Cnt : length (changes_of t r d ignore) = count_true (person_mask tr p)) by (rewrite <- E1; apply compress_length; auto).
          destruct (compress_back (person_mask tr p) (j := S j) ltac:(lia)) as (k' & Hm' & Hj').
          assert (Hi' : nth_error (tr_times tr) k' = Some i') by (rewrite <- Hj', E1 by auto; auto).
          assert (Hp' : nth_error (tr_persons tr) k' = Some p).
          { unfold person_mask in Hm'. rewrite nth_error_map in Hm'. destruct (nth_error (tr_persons tr) k') as [q|]; simpl in Hm'; [|discriminate].
            injection Hm' as Hm'. apply Nat.eqb_eq in Hm'. congruence. }
          pose proof (at_lt _ _ _ _ Hi') as Lk'.
          destruct (lt_at _ (tr_new tr) k' ltac:(lia)) as [x' Hx']. destruct (lt_at _ (tr_old tr) k' ltac:(lia)) as [o' Ho'].
          exists k', i', x', o'. split; [|repeat split; auto].
          assert (Hii : (i < i')%nat) by (unfold changes_of in J1, Ei'; destruct (filter_seq_next _ _ _ _ J1 Ei'); lia).
          destruct (lt_eq_lt_dec k k') as [[Hl|He]|Hg]; auto; exfalso.
          + subst k'. unfold at_ in Hi. assert (i = i') by congruence. lia.
          + destruct (Hlex k' k i' i p p Hg Hi' Hi Hp' Hp); lia. }
      split.
      + intros [H|[H|H]]; apply R1; auto.
        * left. apply Hlater; auto.
        * right; right. apply (Hst p r d Hrow); auto.
      + intros Hig Hno Hne'. apply R2; auto.
        * assert (Lj : (j < length (changes_of t r d ignore))%nat) by (apply nth_error_Some; congruence).
          destruct (lt_dec (S j) (length (changes_of t r d ignore))); [exfalso; apply Hno; apply Hlater; auto|lia].
        * intro Hq. apply Hne'. apply (Hst p r d Hrow); auto.
    - intros p Hpin Hc.
      destruct (Hps p Hpin) as (ds & r & d & Epd & _ & Hrow & Hne).
      pose proof (H1 p ltac:(apply Hin; auto)) as Ec. rewrite Epd in Ec. injection Ec as Ec.
      destruct (@person_durations_spec t p r d ignore Hr Hrow tr Hw Htr Hne) as (ds' & E' & _ & Hsum & _).
      rewrite Epd in E'. injection E' as <-.
      rewrite of_person_compress. fold (person_mask tr p). rewrite <- Ec. apply Hsum.
      destruct Hc as [Hc|Hc]; auto. right. apply (Hst p r d Hrow); auto.
  Qed.
End Dur.
